(** What the decoders read is printable. *)
From Coq Require Import ZArith List Bool Lia String.
From Verif Require Import Base BaseFacts CommonModel RecordsModel Action14Model DecodeModel ParserModel GenPyModel PyValue SpecPython PyTextModel SpecPyText
  RecordsProofs2 Action14Proofs.
Import ListNotations.
Open Scope list_scope.
Open Scope Z_scope.

Lemma is_bytes_iff d : is_bytes d <-> bytesb d = true. Proof. reflexivity. Qed.
Lemma bytesb_firstn : forall n d, bytesb d = true -> bytesb (firstn n d) = true.
Proof. induction n; intros [|b d] H; cbn [firstn]; try reflexivity. unfold bytesb in *. cbn [forallb] in *. apply andb_prop in H as [A B]. rewrite A. apply IHn, B. Qed.
Lemma bytesb_drop_last d : bytesb d = true -> bytesb (drop_last d) = true.
Proof.
  unfold drop_last, bytesb. rewrite !forallb_forall. intros H x I. apply H. revert I. clear H. induction d as [|b [|c d] IH]; cbn [removelast]; [auto|intros []|].
  intros [<-|I]; [left; reflexivity|right; apply IH, I].
Qed.
Lemma split0_bytes : forall d, bytesb d = true -> Forall is_bytes (split0 d).
Proof.
  induction d as [|b d IH]; intros H; cbn [split0]; [repeat constructor|]. unfold bytesb in H. cbn [forallb] in H. apply andb_prop in H as [A B]. specialize (IH B).
  destruct (b =? 0); [constructor; [reflexivity|exact IH]|]. destruct (split0 d) as [|s l] eqn:E; [exfalso; exact (split0_nonempty d E)|].
  inversion IH as [|? ? S L]; subst. constructor; [|exact L]. unfold is_bytes in *. cbn [forallb]. change (Base.byteb b && forallb byteb s = true). now rewrite A, S.
Qed.
Lemma le_value_nonneg : forall l, bytesb l = true -> 0 <= le_value l.
Proof.
  induction l as [|b l IH]; intros H; cbn [le_value]; [lia|]. unfold bytesb in H. cbn [forallb] in H. apply andb_prop in H as [A B]. specialize (IH B). unfold byteb in A.
  apply andb_prop in A as [A1 A2]. assert (0 <= Z.shiftl (le_value l) 8) by (apply Z.shiftl_nonneg; exact IH). lia.
Qed.
Lemma rd_n_B_bytes : forall n d l r, bytesb d = true -> rd_n rd_B n d = Some (l, r) -> bytesb l = true.
Proof.
  induction n as [|n IH]; intros d l r H E; cbn [rd_n] in E; [inv_opt; reflexivity|]. inv_opt. destruct (rd_B_range _ _ _ H E0) as [R B]. unfold bytesb. cbn [forallb].
  pose proof (IH _ _ _ B E1) as I. unfold bytesb in I. rewrite I. unfold Base.byteb. rewrite (proj2 (Z.leb_le 0 z)), (proj2 (Z.ltb_lt z 256)) by lia. reflexivity.
Qed.
(** Action 14. *)
Definition ok_dict (l : ddict) : Prop := NoDup (map fst l) /\ Forall (fun e => is_bytes (fst e) /\ dval_ok (snd e)) l.
Lemma ok_dict_iff l : dval_ok (DDict l) <-> ok_dict l.
Proof.
  cbn [dval_ok]. unfold ok_dict. assert (E : forall m : ddict, (fix all (l : ddict) := match l with [] => True | e :: r => is_bytes (fst e) /\ dval_ok (snd e) /\ all r end) m <-> Forall (fun e => is_bytes (fst e) /\ dval_ok (snd e)) m).
  { induction m as [|e m IH]; [split; constructor|]. split; [intros (A & B & C); constructor; [auto|apply IH, C]|intros H; inversion H as [|? ? [A B] C]; subst; split; [exact A|split; [exact B|apply IH, C]]]. }
  split; intros [A B]; (split; [exact A|apply E, B]).
Qed.
Lemma ok_set l k v : ok_dict l -> is_bytes k -> dval_ok v -> ok_dict (dict_set bytes_eqb l k v).
Proof.
  intros [N F] K V. assert (KS : forall (l : ddict) x, In x (map fst (dict_set bytes_eqb l k v)) -> x = k \/ In x (map fst l)).
  { clear. induction l as [|[k' v'] l IH]; intros x H; cbn [dict_set] in H; [destruct H as [<-|[]]; auto|]. destruct (bytes_eqb k k'); cbn [map fst] in *; [auto|].
    destruct H as [<-|H]; [cbn; auto|]. apply IH in H. cbn. tauto. }
  induction l as [|[k' v'] l IH]; cbn [dict_set]; [split; [constructor; [intros []|constructor]|repeat constructor; assumption]|].
  cbn [map fst] in N. apply NoDup_cons_iff in N as [N1 N2]. inversion F as [|? ? F1 F2]; subst. destruct (bytes_eqb k k') eqn:E.
  - apply bytes_eqb_eq in E. subst k'. split; [constructor; assumption|]. constructor; [cbn; auto|exact F2].
  - destruct (IH N2 F2) as [I1 I2]. split; [|constructor; assumption]. cbn [map fst]. constructor; [|exact I1]. intros X. apply KS in X as [-> |X]; [|contradiction]. now rewrite bytes_eqb_refl in E.
Qed.
Definition ok_item (i : ditem) : Prop := match i with IBin b => is_bytes b | IText _ t => is_bytes t end.
Lemma ok_get l k v : ok_dict l -> dict_get bytes_eqb l k = Some v -> dval_ok v.
Proof. intros [_ F] E. induction l as [|[k' v'] l IH]; cbn [dict_get] in E; [discriminate|]. inversion F as [|? ? [_ F1] F2]; subst. destruct (bytes_eqb k k'); [apply some_inj in E; now subst|apply IH; assumption]. Qed.
Lemma ok_append l k i r : ok_dict l -> is_bytes k -> ok_item i -> dict_append l k i = Some r -> ok_dict r.
Proof.
  intros O K I E. unfold dict_append in E. destruct (dict_get bytes_eqb l k) as [[sub|x]|] eqn:G; [discriminate| |]; apply some_inj in E; subst r; apply ok_set; try assumption.
  - apply (ok_get _ _ _ O) in G. cbn [dval_ok] in *. apply Forall_app. split; [exact G|]. constructor; [exact I|constructor].
  - cbn [dval_ok]. constructor; [exact I|constructor].
Qed.
Lemma ok_nil : ok_dict []. Proof. split; constructor. Qed.
Lemma ok_chunks : forall fuel d res r tail, bytesb d = true -> ok_dict res -> decode_chunks fuel d res = Some (r, tail) -> ok_dict r /\ bytesb tail = true.
Proof.
  induction fuel as [|fuel IH]; intros d res r tail Hb Hw H; cbn [decode_chunks] in H; [discriminate|].
  inv_opt. apply (rd_B_range _ _ _ Hb) in E as [Hz Hb0]. destruct (z =? 0); [inv_opt; auto|]. unfold slice in H at 1. cbv iota beta in H.
  assert (Hs : bytesb (skipn 4 b) = true) by now apply bytesb_skipn. assert (Hk : is_bytes (firstn 4 b)) by now apply bytesb_firstn.
  destruct (z =? 67).
  - inv_opt. destruct (IH _ _ _ _ Hs ok_nil E) as [W1 B1]. apply (IH _ _ _ _ B1) in H; [assumption|]. apply ok_set; [assumption..|]. apply ok_dict_iff. exact W1.
  - destruct (z =? 66).
    + apply bind_some in H as [[l0 d0] [E H]]. unfold slice in H. cbv iota beta in H. inv_opt. destruct (rd_H_range _ _ _ Hs E) as [Hr Hb2].
      apply (IH _ _ _ _ (bytesb_skipn _ _ Hb2)) in H; [assumption|]. eapply ok_append; [exact Hw|exact Hk| |exact E0]. apply bytesb_firstn. exact Hb2.
    + destruct (z =? 84); [|discriminate]. inv_opt. destruct (rd_B_range _ _ _ Hs E) as [Hr Hb2].
      apply (IH _ _ _ _ (bytesb_skipn (S v) _ Hb2)) in H; [assumption|]. eapply ok_append; [exact Hw|exact Hk| |exact E1]. apply bytesb_firstn. exact Hb2.
Qed.
Lemma feature_of_ok f g : feature_of f = Some g -> is_feature g.
Proof. unfold feature_of, is_feature. intros H. inv_opt. lia. Qed.

Theorem decoded_printable t d a : bytesb d = true -> decode_record t d = Some a -> printable a /\ own_names a = [].
Proof.
  intros B H. unfold decode_record in H.
  repeat match type of H with (if ?c then _ else _) = Some _ => destruct c end; try discriminate;
    match type of H with option_map _ ?x = Some _ => destruct x as [r|] eqn:E; [|discriminate]; cbn [option_map] in H; apply some_inj in H; subst a; split; [|reflexivity]; cbn [printable] end.
  - unfold decode_action1 in E. inv_opt. apply feature_of_ok in E1. destruct (z0 =? 0); inv_opt; exact E1.
  - unfold decode_action4 in E. inv_opt. apply feature_of_ok in E1. cbn [a4_feature a4_strings a4_generic a4_offset].
    apply (rd_B_range _ _ _ B) in E0 as [_ B1]. apply (rd_B_range _ _ _ B1) in E2 as [_ B2]. apply (rd_B_range _ _ _ B2) in E3 as [_ B3].
    assert (R : 0 <= z2 /\ bytesb b2 = true).
    { destruct (flag z0 128); [apply (rd_H_range _ _ _ B3) in E4; tauto|].
      assert (D : rd_B b1 = Some (z2, b2) -> 0 <= z2 /\ bytesb b2 = true) by (intros D; apply (rd_B_range _ _ _ B3) in D; tauto).
      destruct b1 as [|c b1]; [apply D, E4|]. destruct (Z.eq_dec c 255) as [->|N].
      - destruct (is_vehicle v); [|apply D, E4]. apply (bytesb_skipn 1) in B3. apply (rd_H_range _ _ _ B3) in E4. tauto.
      - apply D. destruct c as [|p|p]; try exact E4. repeat (destruct p as [p|p|]; try exact E4). exfalso. apply N. reflexivity. }
    destruct R as [R1 R2]. split; [exact E1|]. split; [|intros _; exact R1].
    destruct (drop_last b2) as [|c l] eqn:DL; [repeat constructor|]. apply split0_bytes. rewrite <- DL. apply bytesb_drop_last, R2.
  - exact I.
  - exact I.
  - unfold decode_action7or9 in E. inv_opt. cbn [a7_value].
    apply (rd_B_range _ _ _ B) in E0 as [_ B1]. apply (rd_B_range _ _ _ B1) in E1 as [_ B2]. apply (rd_B_range _ _ _ B2) in E2 as [_ B3].
    apply le_value_nonneg. eapply rd_n_B_bytes; [exact B3|exact E3].
  - unfold decode_action8 in E. destruct d as [|v d]; [discriminate|]. assert (B1 := bytesb_skipn 1 _ B). cbn [skipn] in B1. assert (B2 := bytesb_skipn 4 _ B1).
    destruct (find0 (skipn 4 d)) as [p|]; inv_opt; cbn [a8_grfid a8_name a8_desc];
      repeat split; try (now apply bytesb_firstn); apply bytesb_drop_last; [apply bytesb_skipn|..]; assumption.
  - unfold decode_action7or9 in E. inv_opt. cbn [a7_value].
    apply (rd_B_range _ _ _ B) in E0 as [_ B1]. apply (rd_B_range _ _ _ B1) in E1 as [_ B2]. apply (rd_B_range _ _ _ B2) in E2 as [_ B3].
    apply le_value_nonneg. eapply rd_n_B_bytes; [exact B3|exact E3].
  - exact I.
  - unfold decode_actionB in E. apply bind_some in E as ([z b] & E0 & E). apply bind_some in E as ([z0 b0] & E1 & E). apply bind_some in E as ([z1 b1] & E2 & E).
    apply (rd_B_range _ _ _ B) in E0 as [_ B1]. apply (rd_B_range _ _ _ B1) in E1 as [_ B2]. apply (rd_B_range _ _ _ B2) in E2 as [_ B3].
    set (p := if negb (z1 =? 255) then _ else _) in E. destruct p as [message rest] eqn:EP.
    assert (X : match message with MText b => is_bytes b | _ => True end /\ bytesb rest = true).
    { unfold p in EP. destruct (negb (z1 =? 255)); [destruct (find0 b1) as [q|]|]; inv_opt; (split; [|try assumption]); try exact I; [apply bytesb_firstn, B3|apply bytesb_skipn, B3]. }
    destruct X as [X1 X2]. set (q := match rest with [] => (None, []) | _ => _ end) in E. destruct q as [text ps] eqn:EQ. inv_opt. cbn [ab_message ab_text_param].
    split; [exact X1|]. unfold q in EQ. destruct rest as [|c rest]; [inv_opt; exact I|]. destruct (find0 (c :: rest)) as [k|]; inv_opt; [apply bytesb_firstn, X2|exact I].
  - unfold decode_actionC in E. apply some_inj in E. subst r. exact B.
  - unfold decode_actionD in E. inv_opt. cbn [ad_value].
    apply (rd_B_range _ _ _ B) in E0 as [_ B1]. apply (rd_B_range _ _ _ B1) in E1 as [_ B2]. apply (rd_B_range _ _ _ B2) in E2 as [_ B3]. apply (rd_B_range _ _ _ B3) in E3 as [_ B4].
    destruct ((z1 =? 255) || (z2 =? 255)); inv_opt; [|exact I]. apply (rd_I_range _ _ _ B4) in E. unfold u32. lia.
  - unfold decode_action10 in E. inv_opt. apply (rd_B_range _ _ _ B) in E0 as [_ B1]. exact B1.
  - exact I.
  - unfold decode_action14 in E. inv_opt. apply ok_dict_iff. eapply ok_chunks; [exact B|exact ok_nil|exact E0].
  - unfold decode_actionFE in E. inv_opt. cbn [afe_grfid]. apply bytesb_firstn, bytesb_skipn, B.
Qed.
