(** Properties C05 and C06: the XML writer. *)
From Verif Require Import Str WriterModel WriterSpec WriterProofs.

(** C05 *)
Theorem writer_ok_iff : forall cs,
  (exists w, w_run w_init cs = WOk w) <-> never_overclosed cs.
Proof. exact run_never_overclosed. Qed.
Print Assumptions writer_ok_iff.

Theorem writer_fails_at_first_overclose : forall cs w rest,
  w_run w_init cs = WFail w rest <->
  exists p r, cs = p ++ CEnd :: r /\ rest = CEnd :: r /\ never_overclosed p
              /\ opens p = closes p /\ w_run w_init p = WOk w.
Proof. exact run_fail_iff. Qed.
Print Assumptions writer_fails_at_first_overclose.

Theorem writer_output_only_grows : forall p q w w',
  w_run w_init p = WOk w -> w_run w_init (p ++ q) = WOk w' -> exists b, out w' = out w +++ b.
Proof. exact run_prefix. Qed.
Print Assumptions writer_output_only_grows.

Example writer_fails_case :
  exists w, w_run w_init [CStart "a" []; CEnd; CEnd; CText "t"] = WFail w [CEnd; CText "t"] /\ out w = "<a />".
Proof. eexists. split; reflexivity. Qed.

(** C06 *)
Theorem writer_bytes : forall cs w,
  w_run w_init cs = WOk w -> written [] None cs = Some (out w).
Proof. exact run_init_written. Qed.
Print Assumptions writer_bytes.

Example writer_bytes_case :
  exists w, w_run w_init [CStart "a" []; CStart "bb" [("k", "v")]; CText "t"; CEnd; CStart "c" []; CEnd; CEnd] = WOk w
         /\ out w = "<a><bb k=""v"">t</bb><c /></a>".
Proof. eexists. split; reflexivity. Qed.
