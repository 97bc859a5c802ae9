(** Pictures: build and read. *)
From Coq Require Import NArith ZArith List Bool Lia.
From Verif Require Import Str StrFacts StrFind TypesModel Props PropsSet Ast EscapeModel FloatModel FloatProofs XmlParser XmlSpec
  ReadBase ReadProps ReadModel ReadProg ReadProofs.
From Verif Require BuildModel.
From Verif Require Import RoundSpec RoundBase RoundNums RoundRpr RoundSect RoundPpr RoundTable.
Import ListNotations.
Import BuildModel (xml, E, L, leaf, opt, on, valued, valued_n, valued_z, attr_s, attr_n, attr_z).

(** ** Texts that are reported as they are *)
Definition plain_text (c : ascii) : bool := negb ((c =c ch_amp) || (c =c ch_cr) || (c =c ch_lt)).
Lemma text_plain s : all_char plain_text s = true -> text_seen s = s.
Proof.
  unfold text_seen. intros H. replace (text_meaning None s) with (Some s); [reflexivity|].
  induction s as [|c s IH]; [reflexivity|]. cbn [all_char] in H. apply andb_true_iff in H as [Hc Hs].
  cbn [text_meaning]. unfold plain_text in Hc. apply negb_true_iff, orb_false_iff in Hc as [Hc Hw].
  apply orb_false_iff in Hc as [Ha Hr]. rewrite Ha, Hr, Hw, <- IH by exact Hs. reflexivity.
Qed.
Lemma digit_text c : is_digit c = true -> plain_text c = true.
Proof. destruct c as [[] [] [] [] [] [] [] []]; vm_compute; congruence. Qed.
Lemma digit_ws c : is_digit c = true -> is_ws c = false.
Proof. destruct c as [[] [] [] [] [] [] [] []]; vm_compute; congruence. Qed.
Lemma text_N n : text_seen (show_N n) = show_N n.
Proof. apply text_plain. eapply all_char_impl; [|apply show_N_digits]. apply digit_text. Qed.
Lemma text_events_N n : text_events (show_N n) = [EChars (show_N n)].
Proof.
  unfold text_events. rewrite text_N. pose proof (show_N_digits n) as H. pose proof (show_N_nonempty n) as Hn.
  destruct (show_N n) as [|c s]; [congruence|]. cbn [all_char] in *. apply andb_true_iff in H as [Hc _].
  now rewrite (digit_ws c Hc).
Qed.

(** ** Offsets *)
Lemma position_takes A own (f : string -> option A) (default : A) atts : forall off e, takes ((fun (off : Z) e =>
    match e with
    | EChars c => ret (Again (match parse_f64 c with Some x => as_i32f x | None => off end))
    | EEnd q =>
        ret (if q_local q =s own
             then Done (match attr_get "relativeFrom" atts with
                        | Some v => match f v with Some a => a | None => default end
                        | None => default
                        end, off)
             else Again off)
    | EErr => fail
    | _ => ret (Again off)
    end) off e).
Proof. intros off []; apply takes_pure; pure_auto. Qed.
Lemma offset_meant z : is_i32 z -> parse_f64 (show_N (BuildModel.as_u32 z)) = Some (FNum (Z.of_N (BuildModel.as_u32 z))) /\
  as_i32f (FNum (Z.of_N (BuildModel.as_u32 z))) = (if (z <? 0)%Z then max_i32 else z).
Proof.
  intros H. unfold BuildModel.as_u32. split.
  - apply parse_f64_show_N. pose proof (Z.mod_pos_bound z 4294967296 ltac:(lia)). lia.
  - pose proof (Z.mod_pos_bound z 4294967296 ltac:(lia)) as B. rewrite Z2N.id by lia.
    destruct (Z.ltb_spec z 0) as [L|L].
    + replace (z mod 4294967296)%Z with (z + 4294967296)%Z.
      * unfold as_i32f, cast. ranges. lia.
      * apply Z.mod_unique with (q := (-1)%Z); ranges; lia.
    + rewrite Z.mod_small by (ranges; lia). now apply as_i32_Z.
Qed.
Definition offset_of (d : drawing_position) : Z := match reread_position d with Offset z => z | Align _ => 0 end.
Lemma reread_offset d : reread_position d = Offset (offset_of d).
Proof. destruct d; reflexivity. Qed.
Lemma reads_position A own (f : string -> option A) (default : A) n rel d :
  fits_position d -> q_local (split_qname n) = own -> ("posOffset" =s own)%string = false -> ("align" =s own)%string = false ->
  reads 0 (fun _ => read_position own f default (meant [("relativeFrom"%string, rel)]))
    (xml_events (ch_of (BuildModel.x_position n rel d)) ++ [EEnd (split_qname n)])
    (match f (seen rel) with Some a => a | None => default end, offset_of d).
Proof.
  intros Hd Hn Hp Ha e l c Le Ke. unfold read_position. rewrite N.add_0_r.
  unfold BuildModel.x_position, ch_of, xml_events. cbn [flat_map].
  destruct d as [z|a]; cbn [events_of_xml app flat_map concat_str fold_right].
  - unfold fits_position in Hd. destruct (offset_meant z Hd) as [P1 P2].
    rewrite append_nil_r, text_events_N. cbn [app].
    rewrite loop_step by apply position_takes. cbn [ret].
    rewrite loop_step by apply position_takes. cbn [ret]. rewrite P1, P2.
    rewrite loop_step by apply position_takes. cbn [ret]. change (q_local (split_qname "wp:posOffset")) with "posOffset"%string.
    rewrite Hp. cbn [ret]. rewrite loop_step by apply position_takes. cbn [ret]. rewrite Hn, String.eqb_refl. cbn [ret].
    change (offset_of (Offset z)) with (if (z <? 0)%Z then max_i32 else z). reflexivity.
  - assert (T : exists t, text_events (show_PicAlign a +++ "") = [EChars t] /\ parse_f64 t = None)
      by (destruct a; eexists; split; reflexivity).
    destruct T as (t & -> & Ht). cbn [app].
    rewrite loop_step by apply position_takes. cbn [ret].
    rewrite loop_step by apply position_takes. cbn [ret]. rewrite Ht.
    rewrite loop_step by apply position_takes. cbn [ret]. change (q_local (split_qname "wp:align")) with "align"%string.
    rewrite Ha. cbn [ret]. rewrite loop_step by apply position_takes. cbn [ret]. rewrite Hn, String.eqb_refl. reflexivity.
Qed.

(** ** The picture inside *)
Definition pic_start (s : subs) : string * (N * N) -> qname -> list attribute -> R (string * (N * N)) :=
  ltac:(let t := eval unfold read_pic in read_pic in match t with element _ ?f _ _ => exact f end).
Lemma pic_shape a q atts : Prog (q_local q) (fun s => pic_start s a q atts).
Proof. unfold pic_start. prog_tac. Qed.
Lemma reads_pic p : is_u32 (fst (pic_size p)) -> is_u32 (snd (pic_size p)) ->
  reads 0 (fun _ => read_pic) (xml_events (ch_of (BuildModel.x_pic p)) ++ [EEnd (split_qname "pic:pic")]) (seen (pic_id p), pic_size p).
Proof.
  intros H1 H2. apply (reads_flat "pic" pic_start (fun p => p) pic_shape) with (a := (""%string, (0%N, 0%N))); [reflexivity | reflexivity |].
  unfold BuildModel.x_pic, ch_of. rewrite !xml_events_cons.
  assert (Hl : forall n atts a, (q_local (split_qname n) =s "pic")%string = false -> (q_local (split_qname n) =s "blip")%string = false ->
      (q_local (split_qname n) =s "ext")%string = false -> eats (F "pic" pic_start (fun p => p)) 0 a (events_of_xml (leaf n atts)) a).
  { intros n atts a K1 K2 K3. apply (eats_leaf "pic" pic_start (fun p => p) pic_shape); [exact K1|]. intros. unfold pic_start. now rewrite K2, K3. }
  assert (Ht : forall n atts ch a a', (q_local (split_qname n) =s "pic")%string = false -> (q_local (split_qname n) =s "blip")%string = false ->
      (q_local (split_qname n) =s "ext")%string = false -> eats (F "pic" pic_start (fun p => p)) 0 a (xml_events ch) a' ->
      eats (F "pic" pic_start (fun p => p)) 0 a (events_of_xml (E n atts ch)) a').
  { intros n atts ch a a' K1 K2 K3 K. apply (eats_through "pic" pic_start (fun p => p) pic_shape); [exact K1| |exact K].
    intros. unfold pic_start. now rewrite K2, K3. }
  eapply eats_app0; [|eapply eats_app0; [|eapply eats_app0]].
  - apply Ht; try reflexivity. rewrite !xml_events_cons. eapply eats_app0; [apply Hl; reflexivity|].
    eapply eats_app0; [|apply eats_nil]. apply Ht; try reflexivity. rewrite xml_events_cons.
    eapply eats_app0; [apply Hl; reflexivity | apply eats_nil].
  - apply Ht; try reflexivity. rewrite !xml_events_cons. eapply eats_app0.
    + apply (eats_leaf "pic" pic_start (fun p => p) pic_shape) with (a' := (seen (pic_id p), (0%N, 0%N))); [reflexivity|]. reflexivity.
    + eapply eats_app0; [apply Hl; reflexivity|]. eapply eats_app0; [|apply eats_nil]. apply Ht; try reflexivity.
      rewrite xml_events_cons. eapply eats_app0; [apply Hl; reflexivity | apply eats_nil].
  - apply Ht; try reflexivity. rewrite !xml_events_cons. eapply eats_app0; [|eapply eats_app0; [|apply eats_nil]].
    + apply Ht; try reflexivity. rewrite !xml_events_cons. eapply eats_app0; [apply Hl; reflexivity|]. eapply eats_app0; [|apply eats_nil].
      apply (eats_leaf "pic" pic_start (fun p => p) pic_shape) with (a' := (seen (pic_id p), pic_size p)); [reflexivity|].
      intros d l c. unfold pic_start. destruct (pic_size p) as [w h]. cbn [fst snd] in *. fin.
    + apply Ht; try reflexivity. rewrite xml_events_cons. eapply eats_app0; [apply Hl; reflexivity | apply eats_nil].
  - apply eats_nil.
Qed.

(** ** The drawing *)
Definition dr_start (s : subs) : drawing_state -> qname -> list attribute -> R drawing_state :=
  ltac:(let t := eval unfold read_drawing in (read_drawing s) in match t with element _ ?f _ _ => exact f end).
Lemma dr_shape a q atts : Prog (q_local q) (fun s => dr_start s a q atts).
Proof. unfold dr_start. prog_tac. Qed.
(** An element that changes the state and whose children are taken by the same loop. *)
Lemma eats_into A B own (start : subs -> A -> qname -> list attribute -> R A) (fn : A -> B)
  (shape : forall a q atts, Prog (q_local q) (fun s => start s a q atts)) n atts ch k a a1 a' :
  (q_local (split_qname n) =s own) = false ->
  (forall d l c, start (readers d) a (split_qname n) (meant atts) (st l c) = Val a1 (st l c)) ->
  eats (F own start fn) k a1 (xml_events ch) a' ->
  eats (F own start fn) k a (events_of_xml (E n atts ch)) a'.
Proof.
  intros Hn H He d l c Ld Kd. cbn [events_of_xml app length] in *. rewrite app_length in Ld. cbn [length] in Ld.
  rewrite (elem_start own start fn shape _ _ _ _ _ _ _ _ (H d _ _)). rewrite <- app_assoc. fold (xml_events ch).
  rewrite He by (unfold xml_events; lia). cbn [app]. now rewrite (elem_skip own start fn shape) by exact Hn.
Qed.
Lemma f64_show z : is_i32 z -> attr_i32f "x" [(split_qname "x", seen (show_Z z))] = Some z.
Proof. intros H. unfold attr_i32f. go. rewrite f64_i32, as_i32_Z by exact H. reflexivity. Qed.
Section Drawing.
  Local Notation ea := (eats (F "drawing" dr_start dr_node) 0).
  Definition drawing_first : drawing_state := {| dr_pos := drawing_start; dr_node := NNoDrawing |}.
  Definition plain_name (n : string) : bool :=
    negb (existsb (String.eqb (q_local (split_qname n)))
      ["drawing"; "anchor"; "inline"; "simplePos"; "positionH"; "positionV"; "pic"; "txbx"]%string).
  Lemma plain_start n atts a s : plain_name n = true -> dr_start s a (split_qname n) atts = ret a.
  Proof.
    unfold plain_name, dr_start. cbn [existsb]. intros H. apply negb_true_iff in H. repeat (apply orb_false_iff in H as [? H]).
    now repeat match goal with K : (_ =s _) = false |- _ => rewrite K; clear K end.
  Qed.
  Lemma plain_own n : plain_name n = true -> (q_local (split_qname n) =s "drawing") = false.
  Proof. unfold plain_name. cbn [existsb]. intros H. apply negb_true_iff in H. now apply orb_false_iff in H as [? H]. Qed.
  Lemma dr_leaf n atts a : plain_name n = true -> ea a (events_of_xml (leaf n atts)) a.
  Proof.
    intros H. apply (eats_leaf "drawing" dr_start dr_node dr_shape); [now apply plain_own|]. intros. now rewrite (plain_start _ _ _ _ H).
  Qed.
  Lemma dr_through n atts ch a a' : plain_name n = true -> ea a (xml_events ch) a' -> ea a (events_of_xml (E n atts ch)) a'.
  Proof.
    intros H K. apply (eats_through "drawing" dr_start dr_node dr_shape); [now apply plain_own| |exact K].
    intros. now rewrite (plain_start _ _ _ _ H).
  Qed.
  Lemma dr_inner p d : is_u32 (fst (pic_size p)) -> is_u32 (snd (pic_size p)) ->
    ea d (events_of_xml (BuildModel.x_pic p)) (dr_is (NPic (set_pic_size (pic_size p) (set_pic_id (seen (pic_id p)) (dr_pos d)))) d).
  Proof.
    intros H1 H2. deep "drawing"%string dr_start dr_node dr_shape (reads_pic p H1 H2). reflexivity.
  Qed.
  Lemma dr_graphic p d : is_u32 (fst (pic_size p)) -> is_u32 (snd (pic_size p)) ->
    ea d (xml_events (BuildModel.x_graphic p)) (dr_is (NPic (set_pic_size (pic_size p) (set_pic_id (seen (pic_id p)) (dr_pos d)))) d).
  Proof.
    intros H1 H2. unfold BuildModel.x_graphic. rewrite !xml_events_app, !xml_events_cons. change (xml_events []) with (@nil event).
    rewrite !app_nil_r, <- !app_assoc.
    eapply eats_app0; [apply dr_leaf; reflexivity|]. eapply eats_app0; [apply dr_leaf; reflexivity|].
    eapply eats_app0 with (b := d).
    { destruct (pic_overlap p); [|destruct (pic_anchor p)]; cbn [on]; [| |apply eats_nil];
        rewrite xml_events_cons; change (xml_events []) with (@nil event); rewrite app_nil_r; apply dr_leaf; reflexivity. }
    eapply eats_app0; [apply dr_leaf; reflexivity|]. eapply eats_app0.
    { apply dr_through; [reflexivity|]. rewrite xml_events_cons. change (xml_events []) with (@nil event). rewrite app_nil_r.
      apply dr_leaf. reflexivity. }
    apply dr_through; [reflexivity|]. rewrite xml_events_cons. change (xml_events []) with (@nil event). rewrite app_nil_r.
    apply dr_through; [reflexivity|]. rewrite xml_events_cons. change (xml_events []) with (@nil event). rewrite app_nil_r.
    now apply dr_inner.
  Qed.
  Ltac go2 := cbv [attr_i32f attr_is_false BuildModel.dists]; go.
  Ltac fin2 := repeat (go2; progress nums); go2; reflexivity.
  Theorem reads_drawing p : fits_pic p ->
    reads 0 (fun d => s_drawing (readers d)) (xml_events (ch_of (BuildModel.x_drawing p)) ++ [EEnd (split_qname "w:drawing")]) (NPic (reread_pic p)).
  Proof.
    intros (H1 & H2 & H3 & H4 & H5 & H6 & H7 & H8 & H9 & H10 & H11).
    pose (d1 := {| dr_pos := set_pic_overlap (pic_simple_pos p) (set_pic_relative_height (pic_relative_height p)
           (set_pic_layout_in_cell (pic_layout_in_cell p) (set_pic_dist_r (pic_dist_r p) (set_pic_dist_l (pic_dist_l p) (set_pic_dist_b (pic_dist_b p)
           (set_pic_dist_t (pic_dist_t p) (set_pic_anchor true drawing_start))))))); dr_node := NNoDrawing |}).
    pose (d0 := {| dr_pos := set_pic_dist_r (pic_dist_r p) (set_pic_dist_l (pic_dist_l p) (set_pic_dist_b (pic_dist_b p)
           (set_pic_dist_t (pic_dist_t p) (set_pic_anchor false drawing_start)))); dr_node := NNoDrawing |}).
    pose (d2 := dr_with (fun q => set_pic_v (Offset (offset_of (pic_v p)))
                 (set_pic_from_v (match read_RelativeFromVType (seen (show_RelativeFromVType (pic_from_v p))) with Some v => v | None => RelativeFromVType_Margin end)
                 (set_pic_h (Offset (offset_of (pic_h p))) (set_pic_from_h (pic_from_h p)
                 (set_pic_simple_y (pic_simple_y p) (set_pic_simple_x (pic_simple_x p) q)))))) d1).
    pose (last := if pic_anchor p then d2 else d0).
    replace (NPic (reread_pic p)) with (dr_node (dr_is (NPic (set_pic_size (pic_size p) (set_pic_id (seen (pic_id p)) (dr_pos last)))) last)).
    2:{ subst last d2 d1 d0. unfold reread_pic. rewrite !reread_offset. destruct (pic_anchor p); [|reflexivity].
        destruct (pic_from_v p); reflexivity. }
    apply (reads_deep "drawing" dr_start dr_node dr_shape) with (a := drawing_first); [reflexivity | reflexivity |].
    unfold BuildModel.x_drawing, ch_of. rewrite xml_events_cons. change (xml_events []) with (@nil event). rewrite app_nil_r.
    subst last. destruct (pic_anchor p) eqn:Ha.
    - eapply (eats_into _ _ "drawing" dr_start dr_node dr_shape) with (a1 := d1); [reflexivity | |].
      + intros d l c. subst d1. unfold dr_start, drawing_first. clear - H5 H8 H9 H10 H11.
        destruct (pic_simple_pos p), (pic_layout_in_cell p); cbv [BuildModel.show_01]; fin2.
      + rewrite !xml_events_app, !xml_events_cons. change (xml_events []) with (@nil event). rewrite !app_nil_r, <- !app_assoc.
        eapply eats_app0; [|eapply eats_app0; [|eapply eats_app0; [|now apply dr_graphic]]].
        * apply (eats_leaf "drawing" dr_start dr_node dr_shape) with (a' := dr_with (fun q => set_pic_simple_y (pic_simple_y p) (set_pic_simple_x (pic_simple_x p) q)) d1);
            [reflexivity|]. intros d l c. unfold dr_start. generalize d1. intros d1'. fin2.
        * generalize d1. intros d1'.
          deep "drawing"%string dr_start dr_node dr_shape (reads_position _ "positionH"%string read_RelativeFromHType RelativeFromHType_Margin "wp:positionH"%string (show_RelativeFromHType (pic_from_h p)) (pic_h p) H6 eq_refl eq_refl eq_refl).
          rewrite rt_from_h. reflexivity.
        * subst d2. generalize d1. intros d1'.
          deep "drawing"%string dr_start dr_node dr_shape (reads_position _ "positionV"%string read_RelativeFromVType RelativeFromVType_Margin "wp:positionV"%string (show_RelativeFromVType (pic_from_v p)) (pic_v p) H7 eq_refl eq_refl eq_refl).
          reflexivity.
    - eapply (eats_into _ _ "drawing" dr_start dr_node dr_shape) with (a1 := d0); [reflexivity | |].
      + intros d l c. subst d0. unfold dr_start, drawing_first. clear - H8 H9 H10 H11. fin2.
      + now apply dr_graphic.
  Qed.
End Drawing.
