(** What each loop does with each kind of child. *)
From Coq Require Import NArith ZArith List Bool Lia.
From Verif Require Import Str StrFacts StrFind TypesModel Props PropsSet Ast EscapeModel XmlParser XmlSpec
  ReadBase ReadProps ReadModel ReadProg ReadProofs.
From Verif Require BuildModel BuildSpec VocabSpec VocabProofs.
From Verif Require Import RoundSpec RoundBase RoundNums RoundRpr RoundSect RoundPpr RoundTable RoundPic RoundRun RoundLoops.
Import ListNotations.
Import BuildModel (xml, E, L, leaf, opt, on, valued, valued_n, valued_z, attr_s, attr_n, attr_z).

Ltac opened := unfold doc_start, header_start, ce_start, sdt_start, comment_start, pa_start, link_start, ins_start, del_start, from_start, ta_start, ro_start.
Ltac kid H :=
  apply ate_sub; let a := fresh "a" in let d := fresh "d" in let l := fresh "l" in let c := fresh "c" in
  let Ld := fresh "Ld" in let Kd := fresh "Kd" in let X := fresh "X" in
  intros a d l c Ld Kd; pose proof (H d l c Ld Kd) as X; revert X;
  match goal with |- _ ?s2 = _ -> _ => generalize s2 end; let s0 := fresh "s0" in intros s0;
  cbn [starts adds]; opened; go; cbv [pa_set ce_block as_ins as_del as_from as_to bind ret]; intros X; rewrite X; clear X;
  try destruct a; cbn; rewrite ?orb_false_r;
  try match goal with |- context [if ?b then true else false] => destruct b end; reflexivity.
Definition one_of (p : lp) (l : list lp) : Prop := In p l.
Ltac places := let H := fresh in intros H; cbn [one_of In] in H; decompose [or] H; clear H; try contradiction; subst; intros.

Lemma ate_run p atts ev v : one_of p [LPara; LLink; LIns; LTo; LDel; LFrom; LSdt] ->
  reads 0 (fun d => s_run (readers d)) ev v -> ate p 0 (EStart (split_qname "w:r") atts :: ev) [v].
Proof. places; kid H. Qed.
Lemma ate_ins p atts ev m ch k : one_of p [LPara; LLink] ->
  reads k (fun d => s_ins (readers d) atts) ev (m, ch) -> ate p k (EStart (split_qname "w:ins") atts :: ev) [NIns m ch].
Proof. places; kid H. Qed.
Lemma ate_del p atts ev m ch k : one_of p [LPara; LLink; LIns; LTo] ->
  reads k (fun d => s_del (readers d) atts) ev (m, ch) -> ate p k (EStart (split_qname "w:del") atts :: ev) [NDel m ch].
Proof. places; kid H. Qed.
Lemma ate_from p atts ev m ch k : one_of p [LPara] ->
  reads k (fun d => s_from (readers d) atts) ev (m, ch) -> ate p k (EStart (split_qname "w:moveFrom") atts :: ev) [NMoveFrom m ch].
Proof. places; kid H. Qed.
Lemma ate_to p atts ev m ch k : one_of p [LPara] ->
  reads k (fun d => s_to (readers d) atts) ev (m, ch) -> ate p k (EStart (split_qname "w:moveTo") atts :: ev) [NMoveTo m ch].
Proof. places; kid H. Qed.
Lemma ate_link p atts ev v k : one_of p [LPara] ->
  reads k (fun d => s_link (readers d) atts) ev v -> ate p k (EStart (split_qname "w:hyperlink") atts :: ev) [v].
Proof. places; kid H. Qed.
Lemma ate_para p atts ev i q b ch k : one_of p [LDoc; LHeader; LCell; LSdt; LComment] ->
  reads k (fun d => s_para (readers d) atts) ev (NPara i q b ch) -> ate p k (EStart (split_qname "w:p") atts :: ev) [NPara i q b ch].
Proof. places; kid H. Qed.
Lemma ate_table p atts ev q g b ch k : one_of p [LDoc; LHeader; LCell; LSdt] ->
  reads k (fun d => s_table (readers d)) ev (NTable q g b ch) -> ate p k (EStart (split_qname "w:tbl") atts :: ev) [NTable q g b ch].
Proof. places; kid H. Qed.
Lemma ate_sdt p atts ev q b ch k : one_of p [LDoc; LHeader; LCell] ->
  reads k (fun d => s_sdt (readers d)) ev (NSdt q b ch) -> ate p k (EStart (split_qname "w:sdt") atts :: ev) [NSdt q b ch].
Proof. places; kid H. Qed.
Lemma ate_row atts ev v k :
  reads k (fun d => s_row (readers d)) ev v -> ate LTable k (EStart (split_qname "w:tr") atts :: ev) [v].
Proof. intros H; kid H. Qed.
Lemma ate_cell atts ev v k :
  reads k (fun d => s_cell (readers d)) ev v -> ate LRow k (EStart (split_qname "w:tc") atts :: ev) [v].
Proof. intros H; kid H. Qed.

(** Marks without content. *)
Ltac mark_leaf lem :=
  apply ate_leaf; [reflexivity|]; intros ? ? ? ?; cbn [starts adds]; opened; go; cbv [pa_set bind ret];
  rewrite lem by assumption; try reflexivity.
Definition ev_leaf (n : string) (atts : list (string * string)) : list event :=
  EStart (split_qname n) (meant atts) :: [EEnd (split_qname n)].
Lemma events_leaf n atts : events_of_xml (leaf n atts) = ev_leaf n atts.
Proof. reflexivity. Qed.
Lemma comment_start_meant id : is_usize id -> read_comment_start (meant [("w:id", show_N id)]%string) = [NCommentStart (bare_comment id) []].
Proof. intros H. unfold read_comment_start. fin. Qed.
Lemma comment_end_meant id : is_usize id -> read_comment_end (meant [("w:id", show_N id)]%string) = [NCommentEnd id].
Proof. intros H. unfold read_comment_end. fin. Qed.
Lemma bookmark_start_meant id s st : is_usize id ->
  read_bookmark_start (meant [("w:id", show_N id); ("w:name", s)]%string) st = Val (NBookmarkStart id (seen s)) st.
Proof. intros H. unfold read_bookmark_start. fin. Qed.
Lemma bookmark_end_meant id st : is_usize id ->
  read_bookmark_end (meant [("w:id", show_N id)]%string) st = Val (NBookmarkEnd id) st.
Proof. intros H. unfold read_bookmark_end. fin. Qed.
Lemma ate_comment_start p id : one_of p [LDoc; LSdt; LPara; LLink; LIns; LTo; LDel; LFrom] -> is_usize id ->
  ate p 0 (ev_leaf "w:commentRangeStart" [("w:id", show_N id)]%string) [NCommentStart (bare_comment id) []].
Proof.
  unfold ev_leaf. intros H Hid. rewrite <- (comment_start_meant id Hid).
  generalize (meant [("w:id", show_N id)]%string). intros m. revert H.
  places; (apply ate_leaf; [reflexivity|]; intros a ? ? ?; cbn [starts adds]; opened; go; cbv [pa_set bind ret]; reflexivity).
Qed.
Lemma ate_comment_end p id : one_of p [LDoc; LSdt; LPara; LLink; LIns; LTo; LDel; LFrom] -> is_usize id ->
  ate p 0 (ev_leaf "w:commentRangeEnd" [("w:id", show_N id)]%string) [NCommentEnd id].
Proof.
  unfold ev_leaf. intros H Hid. rewrite <- (comment_end_meant id Hid).
  generalize (meant [("w:id", show_N id)]%string). intros m. revert H.
  places; (apply ate_leaf; [reflexivity|]; intros a ? ? ?; cbn [starts adds]; opened; go; cbv [pa_set bind ret]; reflexivity).
Qed.
Ltac bookmark X :=
  apply ate_leaf; [reflexivity|]; intros a d l c; cbn [starts adds]; opened; pose proof (X (st l c)) as Y; revert Y;
  go; cbv [pa_set bind ret]; intros Y; rewrite Y; reflexivity.
Lemma ate_bookmark_start p id s : one_of p [LDoc; LSdt; LPara; LLink] -> is_usize id ->
  ate p 0 (ev_leaf "w:bookmarkStart" [("w:id", show_N id); ("w:name", s)]%string) [NBookmarkStart id (seen s)].
Proof.
  unfold ev_leaf. intros H Hid. pose proof (fun st => bookmark_start_meant id s st Hid) as X. revert X.
  generalize (meant [("w:id", show_N id); ("w:name", s)]%string). intros m X. revert H. places; bookmark X.
Qed.
Lemma ate_bookmark_end p id : one_of p [LDoc; LSdt; LPara; LLink] -> is_usize id ->
  ate p 0 (ev_leaf "w:bookmarkEnd" [("w:id", show_N id)]%string) [NBookmarkEnd id].
Proof.
  unfold ev_leaf. intros H Hid. pose proof (fun st => bookmark_end_meant id st Hid) as X. revert X.
  generalize (meant [("w:id", show_N id)]%string). intros m X. revert H. places; bookmark X.
Qed.

(** ** Elements a loop passes over *)
Definition passes (p : lp) (x : xml) : Prop :=
  closes p (q_local (split_qname (BuildSpec.xname x))) = false /\
  forall a d atts s, starts p (readers d) a (split_qname (BuildSpec.xname x)) atts s = Val a s.
Lemma ate_passed p x : Forall (passes p) (BuildSpec.elements x) -> ate p 0 (events_of_xml x) [].
Proof.
  induction x as [n a ch IH|n a ts] using xml_tree_ind; intros H; cbn [BuildSpec.elements] in H; inversion H as [|? ? [Hc Hs] Hch]; subst;
    cbn [BuildSpec.xname] in *; cbn [events_of_xml].
  - apply ate_through; [exact Hc | intros; apply Hs |]. clear H. induction ch as [|x ch IHc]; [apply ate_nil|].
    cbn [flat_map] in *. apply Forall_app in Hch as [H1 H2]. inversion IH as [|? ? I1 I2]; subst.
    apply (ate_app0 p _ _ [] []); [now apply I1 | now apply IHc].
  - intros B G (HS & HE & HT) st0. rewrite adds_nil. intros d l c Ld Kd. cbn [app]. rewrite (HS _ _ _ _ _ _ _ _ (Hs _ _ _ _)).
    rewrite <- app_assoc, HT. cbn [app]. rewrite HE by exact Hc. now rewrite N.add_0_r.
Qed.
Lemma ate_passed_all p l : Forall (passes p) (flat_map BuildSpec.elements l) -> ate p 0 (xml_events l) [].
Proof.
  induction l as [|x l IH]; intros H; [apply ate_nil|]. cbn [flat_map] in H. apply Forall_app in H as [H1 H2].
  rewrite xml_events_cons. apply (ate_app0 p _ _ [] []); [now apply ate_passed | now apply IH].
Qed.

(** ** Elements that are ignored *)
Definition calm (n : string) (e : event) : Prop := match e with EEnd q => (q_local q =s n) = false | _ => True end.
Lemma ignore_takes n : forall (a : unit) e, takes ((fun (_ : unit) e =>
    match e with
    | EEnd q => ret (if q_local q =s n then Done tt else Again tt)
    | _ => ret (Again tt)
    end) a e).
Proof. intros a []; apply takes_pure; pure_auto. Qed.
Lemma reads_ignore n ev q : Forall (calm n) ev -> q_local q = n -> reads 0 (fun _ => ignore n) (ev ++ [EEnd q]) tt.
Proof.
  intros H Hq d l c _ _. rewrite N.add_0_r. unfold ignore. induction ev as [|e ev IH]; cbn [app].
  - rewrite loop_step by apply ignore_takes. cbn. now rewrite Hq, String.eqb_refl.
  - inversion H as [|? ? He Hev]; subst. rewrite loop_step by apply ignore_takes.
    destruct e; cbn [calm] in He; cbn [ret]; rewrite ?He; now apply IH.
Qed.
Lemma calm_texts n s : Forall (calm n) (text_events s).
Proof. unfold text_events. destruct s; [constructor|]. destruct (all_char _ _); now repeat constructor. Qed.
Lemma calm_xml n x : Forall (fun y => (q_local (split_qname (BuildSpec.xname y)) =s n) = false) (BuildSpec.elements x) ->
  Forall (calm n) (events_of_xml x).
Proof.
  induction x as [m a ch IH|m a ts] using xml_tree_ind; intros H; cbn [BuildSpec.elements] in H; inversion H as [|? ? Hn Hch]; subst;
    cbn [BuildSpec.xname] in Hn; cbn [events_of_xml].
  - constructor; [exact I|]. apply Forall_app. split; [|now repeat constructor]. clear H Hn.
    induction ch as [|x ch IHc]; [constructor|]. cbn [flat_map] in *. apply Forall_app in Hch as [H1 H2]. inversion IH as [|? ? I1 I2]; subst.
    apply Forall_app. split; [now apply I1 | now apply IHc].
  - constructor; [exact I|]. apply Forall_app. split; [apply calm_texts | now repeat constructor].
Qed.
Lemma calm_all n l : Forall (fun y => (q_local (split_qname (BuildSpec.xname y)) =s n) = false) (flat_map BuildSpec.elements l) ->
  Forall (calm n) (xml_events l).
Proof.
  induction l as [|x l IH]; intros H; [constructor|]. cbn [flat_map] in H. apply Forall_app in H as [H1 H2].
  rewrite xml_events_cons. apply Forall_app. split; [now apply calm_xml | now apply IH].
Qed.
Lemma ate_moved atts ev : reads 0 (fun _ => ignore "moveFrom") ev tt -> ate LLink 0 (EStart (split_qname "w:moveFrom") atts :: ev) [].
Proof.
  intros H. apply ate_sub. intros a d l c Ld Kd. pose proof (H d l c Ld Kd) as X. revert X.
  match goal with |- _ ?s2 = _ -> _ => generalize s2 end. intros s0.
  cbn [starts adds]. opened. rewrite app_nil_r. go. intros X. rewrite X. reflexivity.
Qed.
