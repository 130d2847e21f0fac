(** Decoding then encoding: what the decompiler reads can be written again and
    is read as the same record. *)
From Coq Require Import ZArith List Bool Lia ZifyBool.
From Verif Require Import Base BaseFacts CommonModel CommonProofs RecordsModel SpecRecords RecordsProofs.
Import ListNotations.
Open Scope Z_scope.

Lemma bytesb_cons : forall b r, bytesb (b :: r) = true -> 0 <= b < 256 /\ bytesb r = true.
Proof. intros b r H. apply andb_prop in H as [Hb H]. unfold byteb in Hb. split; [lia|exact H]. Qed.

Lemma rd_B_range : forall d v r, bytesb d = true -> rd_B d = Some (v, r) -> 0 <= v < 256 /\ bytesb r = true.
Proof. intros [|b d] v r H E; [discriminate|]. cbn in E. inv_opt. now apply bytesb_cons. Qed.
Lemma rd_H_range : forall d v r, bytesb d = true -> rd_H d = Some (v, r) -> 0 <= v < 65536 /\ bytesb r = true.
Proof.
  intros [|a [|b d]] v r H E; try discriminate.
  apply bytesb_cons in H as [Ha H]. apply bytesb_cons in H as [Hb H].
  rewrite rd_H_cons in E by lia. inv_opt. split; [lia|assumption].
Qed.
Lemma rd_I_range : forall d v r, bytesb d = true -> rd_I d = Some (v, r) -> 0 <= v < 4294967296 /\ bytesb r = true.
Proof.
  intros [|a [|b [|c [|e d]]]] v r H E; try discriminate.
  apply bytesb_cons in H as [Ha H]. apply bytesb_cons in H as [Hb H].
  apply bytesb_cons in H as [Hc H]. apply bytesb_cons in H as [He H].
  rewrite rd_I_cons in E by lia. inv_opt. split; [lia|assumption].
Qed.
Lemma rd_ext_range : forall d v r, bytesb d = true -> rd_ext d = Some (v, r) -> 0 <= v < 65536 /\ bytesb r = true.
Proof.
  intros d v r H E. unfold rd_ext in E. inv_opt. apply rd_B_range in E0 as [? ?]; [|assumption].
  destruct (negb (z =? 255)); [inv_opt; split; [lia|assumption]|]. now apply (rd_H_range b).
Qed.
Lemma rd_n_range : forall {A} (P : A -> Prop) rd,
  (forall d v r, bytesb d = true -> rd d = Some (v, r) -> P v /\ bytesb r = true) ->
  forall n d l r, bytesb d = true -> rd_n rd n d = Some (l, r) ->
  Forall P l /\ length l = n /\ bytesb r = true.
Proof.
  intros A P rd Hrd. induction n as [|n IH]; intros d l r H E; cbn [rd_n] in E; inv_opt.
  - auto.
  - apply Hrd in E0 as [? ?]; [|assumption]. apply IH in E1 as [? [? ?]]; [|assumption].
    cbn. auto.
Qed.

Ltac ranges :=
  repeat match goal with
  | H : bytesb ?d = true, E : rd_B ?d = Some _ |- _ => apply (rd_B_range _ _ _ H) in E as [? ?]
  | H : bytesb ?d = true, E : rd_H ?d = Some _ |- _ => apply (rd_H_range _ _ _ H) in E as [? ?]
  | H : bytesb ?d = true, E : rd_I ?d = Some _ |- _ => apply (rd_I_range _ _ _ H) in E as [? ?]
  | H : bytesb ?d = true, E : rd_ext ?d = Some _ |- _ => apply (rd_ext_range _ _ _ H) in E as [? ?]
  | E : feature_of _ = Some _ |- _ => apply feature_inv in E as [? ?]; subst
  end.

Ltac packs := repeat (first [rewrite pack_B_ok by lia | rewrite pack_H_ok by lia | rewrite pack_I_ok by lia]);
  cbn [bind app].

Ltac encode_it :=
  cbn [concat_opt]; packs; eexists; reflexivity.

Lemma action1_re : forall d a, bytesb d = true -> decode_action1 d = Some a ->
  exists b, action1_data a = Some b /\ exists d', b = 1 :: d' /\ decode_action1 d' = Some a.
Proof.
  intros d a Hd H.
  assert (X : a1_ok a /\ a1_norm a = a /\ exists b, action1_data a = Some b).
  { unfold decode_action1 in H. inv_opt. destruct (z0 =? 0) eqn:Ez; inv_opt; ranges.
    - split; [split; cbn; [lia|discriminate]|]. split; [reflexivity|].
      unfold action1_data. cbn [a1_first_set a1_feature a1_set_count a1_sprite_count]. encode_it.
    - split; [split; cbn; [lia|lia]|]. unfold a1_norm, action1_data.
      cbn [a1_first_set a1_feature a1_set_count a1_sprite_count].
      destruct (z0 <=? 255) eqn:E; [|lia]. split; [reflexivity|]. encode_it. }
  destruct X as [Ho [Hn [b Hb]]]. exists b. split; [assumption|].
  destruct (action1_rt _ _ Hb Ho) as [d' [? Hd']]. exists d'. rewrite Hn in Hd'. auto.
Qed.

Lemma land127_128 : forall v, 0 <= v < 256 -> flag v 128 = true ->
  Z.lor (Z.land v 127) 128 = v /\ 0 <= Z.land v 127 < 128.
Proof.
  intros v Hv Hf. rewrite land127 by lia. rewrite lor128 by lia.
  destruct (Z_lt_dec v 128); [rewrite flag128_lo in Hf by lia; discriminate|]. split; lia.
Qed.

Lemma split0_nonempty : forall d, split0 d <> [].
Proof. induction d as [|b d IH]; cbn; [discriminate|]. destruct (b =? 0); [discriminate|].
  destruct (split0 d); congruence. Qed.
Lemma split0_nozero : forall d s, In s (split0 d) -> ~ In 0 s.
Proof.
  induction d as [|b d IH]; intros s H; cbn [split0] in H.
  - destruct H as [<-|[]]. auto.
  - destruct (b =? 0) eqn:E.
    + destruct H as [<-|H]; [auto|]. now apply IH.
    + destruct (split0 d) as [|h t] eqn:Es; [now apply split0_nonempty in Es|].
      destruct H as [<-|H].
      * intros [X|X]; [lia|]. apply (IH h); [now left|assumption].
      * apply IH. now right.
Qed.

Lemma action4_re : forall d a, bytesb d = true -> decode_action4 d = Some a ->
  exists b, action4_data a = Some b /\ exists d', b = 4 :: d' /\ decode_action4 d' = Some a.
Proof.
  intros d a Hd H.
  assert (X : a4_ok a /\ exists b, action4_data a = Some b).
  { unfold decode_action4 in H. inv_opt.
    set (strings := match drop_last b2 with [] => [[]] | _ => split0 (drop_last b2) end) in *.
    assert (Hst : strings <> [] /\ forall s, In s strings -> ~ In 0 s).
    { unfold strings. destruct (drop_last b2) as [|x0 r0] eqn:Edl.
      - split; [discriminate|]. intros s [<-|[]]. auto.
      - split; [apply split0_nonempty|apply split0_nozero]. }
    clearbody strings. change (list bytes) in (type of strings). change (@len (list Z) strings) with (@len bytes strings) in C. ranges.
    assert (Hz2 : 0 <= z2 < 65536 /\ (flag z0 128 = false -> is_vehicle z = false -> z2 < 256)
                  /\ (flag z0 128 = false -> is_vehicle z = true -> z2 < 255 \/ True)).
    { destruct (flag z0 128) eqn:Eg; [ranges; repeat split; try lia; discriminate|].
      destruct b1 as [|x b1]; [discriminate|]. match goal with Hq : bytesb (x :: b1) = true |- _ => apply bytesb_cons in Hq as [Hx Hb1] end.
      assert (Y : rd_B (x :: b1) = Some (z2, b2) \/ (is_vehicle z = true /\ rd_H b1 = Some (z2, b2))).
      { destruct x as [|p|p]; try (left; exact E3).
        do 8 (destruct p; try (left; exact E3)). destruct (is_vehicle z); auto. }
      destruct Y as [Y|[Hv Y]].
      - cbn in Y. inv_opt. repeat split; lia.
      - ranges. repeat split; try lia. intros _ Q. congruence. }
    split.
    - repeat split; cbn [a4_feature a4_lang a4_strings]; try lia; try tauto.
      + rewrite land127 by lia. lia.
      + rewrite land127 by lia. lia.
    - unfold action4_data. cbn [a4_feature a4_lang a4_strings a4_generic a4_offset].
      destruct (flag z0 128) eqn:Eg.
      + destruct (land127_128 z0) as [-> _]; [lia|assumption|]. encode_it.
      + assert (0 <= Z.land z0 127 < 128) by (rewrite land127 by lia; lia).
        destruct (is_vehicle z && (255 <=? z2)) eqn:Ev; [encode_it|].
        destruct (is_vehicle z) eqn:V.
        * cbn [andb] in Ev. encode_it.
        * destruct Hz2 as [? [Hz2 _]]. specialize (Hz2 eq_refl eq_refl). encode_it. }
  destruct X as [Ho [b Hb]]. exists b. split; [assumption|].
  destruct (action4_rt _ _ Hb Ho) as [d' [? Hd']]. exists d'. auto.
Qed.

Lemma land_not128_gen : forall v, 0 <= v < 256 -> flag v 128 = true -> Z.land v (Z.lnot 128) = v - 128 /\ 128 <= v.
Proof.
  intros v Hv Hf. destruct (Z_lt_dec v 128); [rewrite flag128_lo in Hf by lia; discriminate|].
  split; [|lia]. replace v with ((v - 128) + 128) at 1 by lia. now apply land_not128; lia.
Qed.

Lemma action5_re : forall d a, bytesb d = true -> decode_action5 d = Some a ->
  exists b, action5_data a = Some b /\ exists d', b = 5 :: d' /\ decode_action5 d' = Some a.
Proof.
  intros d a Hd H.
  assert (X : 0 <= a5_type a < 128 /\ exists b, action5_data a = Some b).
  { unfold decode_action5 in H. inv_opt. destruct (flag z 128) eqn:Ef; inv_opt; ranges.
    - destruct (land_not128_gen z) as [-> ?]; [lia|assumption|]. cbn [a5_type]. split; [lia|].
      unfold action5_data. cbn [a5_type a5_offset a5_count]. rewrite lor128 by lia. encode_it.
    - cbn [a5_type]. assert (z < 128) by (destruct (Z_lt_dec z 128); [lia|rewrite flag128_hi in Ef by lia; discriminate]).
      split; [lia|]. unfold action5_data. cbn [a5_type a5_offset a5_count]. encode_it. }
  destruct X as [Ho [b Hb]]. exists b. split; [assumption|].
  destruct (action5_rt _ _ Hb Ho) as [d' [? Hd']]. exists d'. auto.
Qed.

Lemma concat_cons : forall x r, concat_opt (x :: r) = do a <- x; do b <- concat_opt r; Some (a ++ b).
Proof. reflexivity. Qed.
Lemma concat_map_ok : forall {A} (f : A -> option bytes) l,
  Forall (fun x => exists b, f x = Some b) l -> exists b, concat_opt (map f l) = Some b.
Proof.
  intros A f l H. induction H as [|x l [b Hb] _ [c Hc]]; cbn [map concat_opt]; [eauto|].
  rewrite Hb, Hc. cbn. eauto.
Qed.
Lemma concat_app_ok : forall l m x y, concat_opt l = Some x -> concat_opt m = Some y ->
  concat_opt (l ++ m) = Some (x ++ y).
Proof.
  induction l as [|a l IH]; intros m x y Hx Hy; cbn [app concat_opt] in *; inv_opt; [assumption|].
  cbn [bind]. rewrite (IH _ _ _ E0 Hy). cbn [bind]. now rewrite app_assoc.
Qed.

Lemma action6_loop_inv : forall fuel d l r, bytesb d = true ->
  decode_action6_loop fuel d = Some (l, r) ->
  Forall (fun p => fst (fst p) <> 255 /\ exists b, patch6_data p = Some b) l.
Proof.
  induction fuel as [|fuel IH]; intros d l r Hd H; cbn [decode_action6_loop] in H; [discriminate|].
  inv_opt. destruct (z =? 255) eqn:Ez; inv_opt; [constructor|].
  ranges. constructor; [|eapply IH; eauto].
  cbn [fst]. split; [lia|]. unfold patch6_data. encode_it.
Qed.

Lemma action6_re : forall d a, bytesb d = true -> decode_action6 d = Some a ->
  exists b, action6_data a = Some b /\ exists d', b = 6 :: d' /\ decode_action6 d' = Some a.
Proof.
  intros d a Hd H. unfold decode_action6 in H. inv_opt. apply action6_loop_inv in E; [|assumption].
  destruct (concat_map_ok patch6_data a) as [x Hx].
  { eapply Forall_impl; [|exact E]. cbn. tauto. }
  assert (Hb : action6_data a = Some ([6] ++ x ++ [255])).
  { unfold action6_data. apply concat_app_ok; [reflexivity|]. now apply concat_app_ok. }
  eexists. split; [exact Hb|]. apply (action6_rt _ _ Hb).
  rewrite Forall_forall in E. intros p Hp. now apply E.
Qed.

Lemma le_value_range : forall l, bytesb l = true -> 0 <= le_value l < 2 ^ (8 * len l).
Proof.
  induction l as [|b l IH]; intro H; [cbn; lia|].
  apply bytesb_cons in H as [Hb H]. specialize (IH H).
  replace (8 * len (b :: l)) with (8 + 8 * len l) by (unfold len; cbn [length]; lia).
  rewrite Z.pow_add_r by (pose proof (len_nonneg l); lia). cbn [le_value].
  rewrite Z.shiftl_mul_pow2 by lia. change (2 ^ 8) with 256. lia.
Qed.

Lemma action7_re : forall s d a, bytesb d = true -> decode_action7or9 s d = Some a ->
  exists b, action7_data a = Some b /\
    exists d', b = (if s then 9 else 7) :: d' /\ decode_action7or9 s d' = Some a.
Proof.
  intros s d a Hd H. unfold decode_action7or9 in H. inv_opt.
  apply (rd_B_range _ _ _ Hd) in E as [? ?]. ranges.
  set (vs := if z1 <? 2 then 1 else z0) in *.
  assert (Hvs : 0 <= vs < 256) by (unfold vs; destruct (z1 <? 2); lia).
  match goal with E : rd_n rd_B _ ?dd = Some _, Hq : bytesb ?dd = true |- _ =>
    destruct (rd_n_range (fun v => 0 <= v < 256) rd_B rd_B_range _ _ _ _ Hq E) as [Fl [Ll Hr]] end.
  ranges.
  set (a := mkA7 s z (Some vs) z1 (IVInt (le_value l)) z2).
  assert (Hbl : bytesb l = true).
  { unfold bytesb. apply forallb_forall. rewrite Forall_forall in Fl. intros x Hx. apply Fl in Hx. unfold byteb. lia. }
  assert (Hnum : a7_number a = le_value l).
  { unfold a7_number, a. cbn [a7_value a7_size a7_varsize]. apply Z.mod_small.
    pose proof (le_value_range l Hbl). unfold len in *. rewrite Ll in *. rewrite Z2Nat.id in * by lia. assumption. }
  assert (Hok : a7_ok a).
  { repeat split; cbn [a7_value a7_cond a7_size a7_varsize a]. intro. unfold vs. destruct (z1 <? 2) eqn:Q; lia. }
  assert (Hb : exists b, action7_data a = Some b).
  { unfold action7_data, a. cbn [a7_varsize a7_value a7_static a7_var a7_cond a7_skip bind concat_opt].
    unfold mk_bytes. cbn [bytesb forallb]. unfold byteb.
    repeat match goal with |- context [if ?c then Some _ else None] =>
      replace c with true by (destruct s; lia); cbn [bind] end. eauto. }
  destruct Hb as [b' Hb]. exists b'. split; [assumption|].
  destruct (action7_rt _ _ Hb Hok) as [d' [Ed Hd']]. exists d'. rewrite Hnum in Hd'. exact (conj Ed Hd').
Qed.

Lemma actionA_re : forall d a, bytesb d = true -> decode_actionA d = Some a ->
  exists b, actionA_data a = Some b /\ exists d', b = 10 :: d' /\ decode_actionA d' = Some a.
Proof.
  intros d a Hd H. unfold decode_actionA in H. inv_opt. ranges.
  destruct (rd_n_range (fun s => 0 <= fst s < 65536 /\ 0 <= snd s < 256) rd_set) with (n := Z.to_nat z) (d := b) (l := a) (r := b0)
    as [Fl [Ll Hr]]; try assumption.
  { intros d0 v r Hd0 X. unfold rd_set in X. inv_opt. ranges. cbn [fst snd]. repeat split; try lia; assumption. }
  assert (Hb : exists b, actionA_data a = Some b).
  { unfold actionA_data. unfold len. destruct (Z.of_nat (length a) <=? 255) eqn:El; [|lia].
    rewrite concat_cons. unfold mk_bytes. cbn [bytesb forallb]. unfold byteb.
    match goal with |- context [if ?c then Some _ else None] => replace c with true by lia end. cbn [bind].
    destruct (concat_map_ok (fun s => concat_opt [pack_B (snd s); pack_H (fst s)]) a) as [x Hx].
    { eapply Forall_impl; [|exact Fl]. intros [f n] [? ?]. cbn [fst snd] in *. encode_it. }
    rewrite Hx. cbn. eauto. }
  destruct Hb as [b' Hb]. exists b'. split; [assumption|]. now apply actionA_rt.
Qed.

Lemma actionD_re : forall d a, bytesb d = true -> decode_actionD d = Some a ->
  exists b, actionD_data a = Some b /\ exists d', b = 13 :: d' /\ decode_actionD d' = Some a.
Proof.
  intros d a Hd H. unfold decode_actionD in H. inv_opt. ranges.
  set (u := flag z0 128) in *. set (op := Z.land z0 127) in *.
  assert (Hop : 0 <= op) by (unfold op; rewrite land127 by lia; lia).
  assert (Hv : (z1 =? 255) || (z2 =? 255) = true /\ (exists n, v = DVNum n /\ 0 <= n < 4294967296)
               \/ (z1 =? 255) || (z2 =? 255) = false /\ v = DVNone).
  { destruct ((z1 =? 255) || (z2 =? 255)); inv_opt; [left|right]; ranges; eauto. }
  set (a := mkAD z op u z1 z2 v).
  assert (Hok : ad_ok a).
  { split; cbn [ad_op ad_value a]; [lia|]. destruct Hv as [[_ [n [-> _]]]|[_ ->]]; exact I. }
  assert (Hn : ad_norm a = a).
  { unfold ad_norm, a. cbn [ad_target ad_op ad_if_undefined ad_src1 ad_src2 ad_value].
    destruct Hv as [[-> [n [-> _]]]|[-> ->]]; reflexivity. }
  assert (Hb : exists b, actionD_data a = Some b).
  { unfold actionD_data, a. cbn [ad_target ad_op ad_if_undefined ad_src1 ad_src2 ad_value concat_opt].
    assert (Hl : 0 <= Z.lor op (128 * Z.b2z u) < 256).
    { destruct u; cbn [Z.b2z].
      - change (128 * 1) with 128. rewrite lor128; lia.
      - change (128 * 0) with 0. rewrite Z.lor_0_r. lia. }
    unfold mk_bytes. cbn [bytesb forallb]. unfold byteb.
    match goal with |- context [if ?c then Some (13 :: _) else None] => replace c with true by lia end.
    cbn [bind].
    destruct Hv as [[-> [n [-> Hn2]]]|[-> ->]]; packs; eauto. }
  destruct Hb as [b' Hb]. exists b'. split; [assumption|].
  destruct (actionD_rt _ _ Hb Hok) as [d' [Ed Hd']]. exists d'. rewrite Hn in Hd'. auto.
Qed.
