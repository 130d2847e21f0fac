(** Proof support for Base.v (lemmas and tactics only). *)
From Coq Require Import ZArith List Bool Lia ZifyBool.
From Verif Require Import Base.
Import ListNotations.
Open Scope Z_scope.

Ltac Zify.zify_post_hook ::= Z.div_mod_to_equations.

Lemma land_shift_0 : forall a b n, 0 <= n -> 0 <= a < 2 ^ n ->
  Z.land a (Z.shiftl b n) = 0.
Proof.
  intros a b n Hn Ha.
  apply Z.bits_inj'. intros k Hk.
  rewrite Z.land_spec, Z.bits_0.
  destruct (Z.ltb_spec k n).
  - rewrite Z.shiftl_spec_low by lia. apply andb_false_r.
  - destruct (Z.eq_dec a 0) as [->|]; [now rewrite Z.bits_0|].
    rewrite (Z.bits_above_log2 a k); [reflexivity | lia |].
    assert (Z.log2 a < n) by (apply Z.log2_lt_pow2; lia). lia.
Qed.

Lemma lor_shift : forall a b n, 0 <= n -> 0 <= a < 2 ^ n ->
  Z.lor a (Z.shiftl b n) = a + b * 2 ^ n.
Proof.
  intros a b n Hn Ha.
  pose proof (land_shift_0 a b n Hn Ha) as H0.
  rewrite <- Z.lxor_lor, <- Z.add_nocarry_lxor by assumption.
  now rewrite Z.shiftl_mul_pow2 by lia.
Qed.

(** Inverting the option monad in a hypothesis. *)
Lemma bind_some : forall {A B} (x : option A) (f : A -> option B) b,
  bind x f = Some b -> exists a, x = Some a /\ f a = Some b.
Proof. intros A B [a|] f b H; [eauto | discriminate]. Qed.

Lemma some_inj : forall {A} (a b : A), Some a = Some b -> a = b.
Proof. intros A a b H; congruence. Qed.
Lemma pair_inj : forall {A B} (a c : A) (b d : B), (a, b) = (c, d) -> a = c /\ b = d.
Proof. intros; split; congruence. Qed.

Ltac inv_opt :=
  repeat match goal with
  | H : bind ?x ?f = Some ?b |- _ =>
      let a := fresh "v" in let E := fresh "E" in
      apply bind_some in H; destruct H as [a [E H]]; cbv beta in H
  | H : (if ?c then _ else None) = Some _ |- _ =>
      let E := fresh "C" in destruct c eqn:E; [|discriminate H]
  | H : (let '(_, _) := ?p in _) = Some _ |- _ => destruct p
  | H : Some _ = Some _ |- _ => apply some_inj in H; try subst
  | H : None = Some _ |- _ => discriminate H
  | H : (_, _) = (_, _) |- _ => apply pair_inj in H as [? ?]; subst
  end.

Lemma pack_B_inv : forall v b, pack_B v = Some b -> 0 <= v < 256 /\ b = [v].
Proof. unfold pack_B; intros; inv_opt; split; [lia|reflexivity]. Qed.
Lemma pack_H_inv : forall v b, pack_H v = Some b ->
  0 <= v < 65536 /\ b = [v mod 256; v / 256].
Proof. unfold pack_H; intros; inv_opt; split; [lia|reflexivity]. Qed.
Lemma pack_I_inv : forall v b, pack_I v = Some b ->
  0 <= v < 4294967296 /\
  b = [v mod 256; (v / 256) mod 256; (v / 65536) mod 256; v / 16777216].
Proof. unfold pack_I; intros; inv_opt; split; [lia|reflexivity]. Qed.
Lemma pack_b_inv : forall v b, pack_b v = Some b -> -128 <= v < 128 /\ b = [v mod 256].
Proof. unfold pack_b; intros; inv_opt; split; [lia|reflexivity]. Qed.
Lemma pack_h_inv : forall v b, pack_h v = Some b ->
  -32768 <= v < 32768 /\ b = [(v mod 65536) mod 256; (v mod 65536) / 256].
Proof. unfold pack_h; intros; inv_opt; split; [lia|reflexivity]. Qed.
Lemma mk_bytes_inv : forall l b, mk_bytes l = Some b -> bytesb l = true /\ b = l.
Proof. unfold mk_bytes; intros; inv_opt; auto. Qed.

Ltac inv_pack :=
  repeat match goal with
  | H : pack_B _ = Some _ |- _ => apply pack_B_inv in H; destruct H as [? H]; subst
  | H : pack_H _ = Some _ |- _ => apply pack_H_inv in H; destruct H as [? H]; subst
  | H : pack_I _ = Some _ |- _ => apply pack_I_inv in H; destruct H as [? H]; subst
  | H : pack_b _ = Some _ |- _ => apply pack_b_inv in H; destruct H as [? H]; subst
  | H : pack_h _ = Some _ |- _ => apply pack_h_inv in H; destruct H as [? H]; subst
  | H : mk_bytes _ = Some _ |- _ => apply mk_bytes_inv in H; destruct H as [? H]; subst
  end.

Lemma rd_B_cons : forall v r, rd_B (v :: r) = Some (v, r).
Proof. reflexivity. Qed.

Lemma rd_H_cons : forall a b r, 0 <= a < 256 ->
  rd_H (a :: b :: r) = Some (a + 256 * b, r).
Proof.
  intros. unfold rd_H. cbn [rd_B bind]. rewrite lor_shift by (try change (2 ^ 8) with 256; lia).
  do 2 f_equal. change (2 ^ 8) with 256. lia.
Qed.

Lemma rd_I_cons : forall a b c e r, 0 <= a < 256 -> 0 <= b < 256 -> 0 <= c < 256 ->
  rd_I (a :: b :: c :: e :: r) = Some (a + 256 * b + 65536 * c + 16777216 * e, r).
Proof.
  intros. unfold rd_I. cbn [rd_B bind].
  rewrite (lor_shift a b 8) by (try change (2 ^ 8) with 256; lia). change (2 ^ 8) with 256.
  rewrite (lor_shift (a + b * 256) c 16) by (try change (2 ^ 16) with 65536; lia). change (2 ^ 16) with 65536.
  rewrite (lor_shift _ e 24) by (try change (2 ^ 24) with 16777216; lia). change (2 ^ 24) with 16777216.
  do 2 f_equal. lia.
Qed.

Lemma rd_B_pack : forall v b r, pack_B v = Some b -> rd_B (b ++ r) = Some (v, r).
Proof. intros v b r H; apply pack_B_inv in H as [? ->]; reflexivity. Qed.
Lemma rd_H_pack : forall v b r, pack_H v = Some b -> rd_H (b ++ r) = Some (v, r).
Proof.
  intros v b r H; apply pack_H_inv in H as [? ->]. cbn [app].
  rewrite rd_H_cons by lia. do 2 f_equal. lia.
Qed.
Lemma rd_I_pack : forall v b r, pack_I v = Some b -> rd_I (b ++ r) = Some (v, r).
Proof.
  intros v b r H; apply pack_I_inv in H as [? ->]. cbn [app].
  rewrite rd_I_cons by lia. do 2 f_equal. lia.
Qed.
Lemma rd_b_pack : forall v b r, pack_b v = Some b -> rd_b (b ++ r) = Some (v, r).
Proof.
  intros v b r H; apply pack_b_inv in H as [? ->]. unfold rd_b. cbn [app rd_B bind].
  destruct (v mod 256 <? 128) eqn:E; do 2 f_equal; lia.
Qed.
Lemma rd_h_pack : forall v b r, pack_h v = Some b -> rd_h (b ++ r) = Some (v, r).
Proof.
  intros v b r H; apply pack_h_inv in H as [? ->]. unfold rd_h. cbn [app].
  rewrite rd_H_cons by lia. cbn [bind].
  match goal with |- context [if ?c then _ else _] => destruct c eqn:E end;
    do 2 f_equal; lia.
Qed.

Lemma rd_ext_encode : forall v b r, encode_ext v = Some b -> rd_ext (b ++ r) = Some (v, r).
Proof.
  intros v b r. unfold encode_ext, rd_ext. destruct (v <? 255) eqn:E; intro H.
  - apply pack_B_inv in H as [? ->]. cbn [app rd_B bind].
    destruct (v =? 255) eqn:E'; [lia|reflexivity].
  - cbn [concat_opt] in H. inv_opt. apply pack_B_inv in E0 as [? ->].
    cbn [app rd_B bind]. cbn [Z.eqb Pos.eqb negb].
    rewrite app_nil_r. now apply rd_H_pack.
Qed.

Lemma rd_ext_long : forall v b r, concat_opt [pack_B 255; pack_H v] = Some b ->
  rd_ext (b ++ r) = Some (v, r).
Proof.
  intros v b r H. cbn [concat_opt] in H. inv_opt. apply pack_B_inv in E as [? ->].
  unfold rd_ext. cbn [app rd_B bind]. cbn [Z.eqb Pos.eqb negb].
  rewrite app_nil_r. now apply rd_H_pack.
Qed.

Lemma pack_B_ok : forall v, 0 <= v < 256 -> pack_B v = Some [v].
Proof. intros; unfold pack_B; destruct ((0 <=? v) && (v <? 256)) eqn:E; [reflexivity|lia]. Qed.
Lemma pack_H_ok : forall v, 0 <= v < 65536 -> pack_H v = Some [v mod 256; v / 256].
Proof. intros; unfold pack_H; destruct ((0 <=? v) && (v <? 65536)) eqn:E; [reflexivity|lia]. Qed.
Lemma pack_I_ok : forall v, 0 <= v < 4294967296 ->
  pack_I v = Some [v mod 256; (v / 256) mod 256; (v / 65536) mod 256; v / 16777216].
Proof. intros; unfold pack_I; destruct ((0 <=? v) && (v <? 4294967296)) eqn:E; [reflexivity|lia]. Qed.
Lemma pack_b_ok : forall v, -128 <= v < 128 -> pack_b v = Some [v mod 256].
Proof. intros; unfold pack_b; destruct ((-128 <=? v) && (v <? 128)) eqn:E; [reflexivity|lia]. Qed.

(** Reading [n] items that were written by a map of a field encoder. *)
Lemma rd_n_concat : forall {A} (enc : A -> option bytes) rd,
  (forall x b r, enc x = Some b -> rd (b ++ r) = Some (x, r)) ->
  forall l b r, concat_opt (map enc l) = Some b ->
  rd_n rd (length l) (b ++ r) = Some (l, r).
Proof.
  intros A enc rd Hrd. induction l as [|x l IH]; intros b r H; cbn [map concat_opt] in H.
  - inv_opt. reflexivity.
  - inv_opt. cbn [length rd_n]. rewrite <- app_assoc, (Hrd _ _ _ E). cbn [bind].
    now rewrite (IH _ _ E0).
Qed.

Lemma rd_n_bytes : forall l r, rd_n rd_B (length l) (l ++ r) = Some (l, r).
Proof. induction l; intros; cbn; [reflexivity|]. now rewrite IHl. Qed.

Lemma slice_app : forall (l r : bytes), slice (length l) (l ++ r) = (l, r).
Proof.
  intros. unfold slice. rewrite firstn_app, skipn_app, firstn_all, skipn_all, Nat.sub_diag.
  cbn. now rewrite app_nil_r.
Qed.

Lemma bytesb_app : forall a b, bytesb (a ++ b) = bytesb a && bytesb b.
Proof. intros; unfold bytesb; apply forallb_app. Qed.

Lemma len_nat : forall {A} (l : list A), Z.to_nat (len l) = length l.
Proof. intros; unfold len; apply Nat2Z.id. Qed.
Lemma len_nonneg : forall {A} (l : list A), 0 <= len l.
Proof. intros; unfold len; lia. Qed.
