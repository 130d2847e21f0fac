(** Facts about the comparison of actions. *)
From Coq Require Import ZArith List Bool String Lia Permutation.
From Verif Require Import Base BaseFacts CommonModel RecordsModel PropModel Action0Model Action14Model VA2Model ParserModel EqModel SpecEq.
Import ListNotations.
Open Scope string_scope.
Open Scope list_scope.
Open Scope Z_scope.

Definition decides {A} (eqb : A -> A -> bool) : Prop := forall x y, eqb x y = true <-> x = y.

Lemma list_eq_Forall2 {A} (eqb : A -> A -> bool) l m :
  list_eq eqb l m = true <-> Forall2 (fun x y => eqb x y = true) l m.
Proof.
  revert m; induction l as [|x l IH]; intros [|y m]; cbn.
  - split; auto.
  - split; intro H; [discriminate|inversion H].
  - split; intro H; [discriminate|inversion H].
  - rewrite andb_true_iff, IH. split.
    + intros [H1 H2]; auto.
    + intro H; inversion H; auto.
Qed.
Lemma Forall2_eq {A} (l m : list A) : Forall2 eq l m <-> l = m.
Proof.
  split.
  - induction 1; congruence.
  - intros ->. induction m; constructor; auto.
Qed.
Lemma Forall2_imp {A B} (P Q : A -> B -> Prop) l m : (forall x y, P x y -> Q x y) -> Forall2 P l m -> Forall2 Q l m.
Proof. intros I; induction 1; constructor; auto. Qed.
Lemma list_eq_decides {A} (eqb : A -> A -> bool) : decides eqb -> decides (list_eq eqb).
Proof.
  intros D l m. rewrite list_eq_Forall2, <- Forall2_eq.
  split; apply Forall2_imp; intros x y; apply D.
Qed.
Lemma Z_decides : decides Z.eqb.
Proof. intros x y; apply Z.eqb_eq. Qed.
Lemma bytes_decides : decides bytes_eq.
Proof. apply list_eq_decides, Z_decides. Qed.
Lemma string_decides : decides String.eqb.
Proof. intros x y; apply String.eqb_eq. Qed.
Lemma pkey_decides : decides pkey_eq.
Proof.
  intros [a|a] [b|b]; cbn; split; intro H; try discriminate.
  - apply bytes_decides in H; congruence.
  - apply bytes_decides; congruence.
  - apply Z.eqb_eq in H; congruence.
  - apply Z.eqb_eq; congruence.
Qed.

(** ** Dictionaries *)
Section Dict.
Context {K V : Type} (keq : K -> K -> bool) (D : decides keq).

Lemma get_in (l : list (K * V)) k v : dict_get keq l k = Some v -> In (k, v) l.
Proof.
  induction l as [|[k' v'] l IH]; cbn; [discriminate|].
  destruct (keq k k') eqn:E.
  - apply D in E; subst. intro H; injection H as ->. now left.
  - intro H; right; auto.
Qed.
Lemma in_get (l : list (K * V)) k v : unique l -> In (k, v) l -> dict_get keq l k = Some v.
Proof.
  unfold unique. induction l as [|[k' v'] l IH]; cbn; [tauto|].
  intros N [E | I].
  - injection E as -> ->. now rewrite (proj2 (D k k) eq_refl).
  - inversion N as [|? ? N1 N2]; subst. destruct (keq k k') eqn:E; [|now apply IH].
    apply D in E; subst. exfalso; apply N1. now apply (in_map fst) in I.
Qed.

End Dict.

Lemma Permutation_F2 {A B} (R : A -> B -> Prop) l l' :
  Permutation l l' -> forall m, Forall2 R l m -> exists m', Permutation m m' /\ Forall2 R l' m'.
Proof.
  induction 1 as [|x l l' P IH|x y l|l1 l2 l3 P1 IH1 P2 IH2]; intros m F.
  - inversion F; subst. exists []; auto.
  - inversion F as [|? y ? m0 Hx Hl]; subst. destruct (IH _ Hl) as (m' & Q & G). exists (y :: m'). split; auto.
  - inversion F as [|? y1 ? m0 Hx Hl]; subst. inversion Hl as [|? y2 ? m1 Hx' Hl']; subst.
    exists (y2 :: y1 :: m1). split; [apply perm_swap|auto].
  - destruct (IH1 _ F) as (m' & Q & G). destruct (IH2 _ G) as (m'' & Q' & G').
    exists m''. split; auto. now apply perm_trans with m'.
Qed.
Lemma F2_flip {A B} (R : A -> B -> Prop) l m : Forall2 R l m -> Forall2 (fun y x => R x y) m l.
Proof. induction 1; constructor; auto. Qed.
Lemma F2_length {A B} (R : A -> B -> Prop) l m : Forall2 R l m -> List.length l = List.length m.
Proof. induction 1; cbn; congruence. Qed.
Lemma F2_in {A B} (R : A -> B -> Prop) l m x : Forall2 R l m -> In x l -> exists y, In y m /\ R x y.
Proof.
  induction 1 as [|a b l m H F IH]; cbn; [tauto|].
  intros [-> | I]; [exists b; auto|]. destruct (IH I) as (y & J & G); exists y; auto.
Qed.

Lemma unique_perm {K V} (a b : list (K * V)) : Permutation a b -> unique a -> unique b.
Proof. unfold unique; intros P N. now apply (Permutation_NoDup (Permutation_map fst P)). Qed.

Section DictEq.
Context {K V : Type} (keq : K -> K -> bool) (D : decides keq).

Lemma dict_pick (R : V -> V -> bool) (a b : list (K * V)) :
  forallb (fun kv => match dict_get keq b (fst kv) with Some w => R (snd kv) w | None => false end) a = true ->
  exists b', Forall2 (fun p q => fst p = fst q /\ R (snd p) (snd q) = true) a b' /\ incl b' b.
Proof.
  induction a as [|[k v] a IH]; cbn; intro H.
  - exists []. split; [constructor|intros x []].
  - apply andb_true_iff in H as [H1 H2]. destruct (IH H2) as (b' & F & I).
    destruct (dict_get keq b k) as [w|] eqn:G; [|discriminate].
    exists ((k, w) :: b'). split; [constructor; auto|].
    intros x [<- | J]; [apply (get_in keq D _ _ _ G)|auto].
Qed.
Lemma keys_same {W} (R : V -> W -> Prop) (a : list (K * V)) (b : list (K * W)) :
  Forall2 (fun p q => fst p = fst q /\ R (snd p) (snd q)) a b -> map fst a = map fst b.
Proof. induction 1 as [|x y a b [E _] F IH]; cbn; congruence. Qed.

Lemma dict_eq_same (R : V -> V -> bool) (a b : list (K * V)) :
  unique a -> unique b ->
  (dict_eq keq R a b = true <-> same_entries (fun v w => R v w = true) a b).
Proof.
  intros Na Nb. unfold dict_eq. rewrite andb_true_iff, Nat.eqb_eq. split.
  - intros [L H]. destruct (dict_pick R a b H) as (b' & F & I).
    exists b'. split; [|exact F].
    symmetry. apply NoDup_Permutation_bis; auto.
    + apply (NoDup_map_inv fst). rewrite <- (keys_same (fun v w => R v w = true) _ _ F). exact Na.
    + rewrite <- (F2_length _ _ _ F), L. apply le_n.
  - intros (b' & P & F). split.
    + rewrite (F2_length _ _ _ F). symmetry. now apply Permutation_length.
    + apply forallb_forall. intros p I.
      destruct (F2_in _ _ _ _ F I) as ([k w] & J & E & G). cbn in E, G.
      apply (Permutation_in _ (Permutation_sym P)) in J. rewrite E.
      now rewrite (in_get keq D b k w Nb J).
Qed.
End DictEq.

Lemma same_entries_refl {K V} (R : V -> V -> Prop) (a : list (K * V)) :
  (forall p, In p a -> R (snd p) (snd p)) -> same_entries R a a.
Proof.
  intro H. exists a. split; auto.
  induction a as [|p a IH]; constructor.
  - split; auto. apply H; now left.
  - apply IH; intros; apply H; now right.
Qed.
Lemma same_entries_sym {K V W} (R : V -> W -> Prop) (a : list (K * V)) (b : list (K * W)) :
  same_entries R a b -> same_entries (fun w v => R v w) b a.
Proof.
  intros (b' & P & F). apply F2_flip in F.
  destruct (Permutation_F2 _ _ _ (Permutation_sym P) _ F) as (a' & Q & G).
  exists a'. split; [exact Q|]. revert G. apply Forall2_imp. intros p q [E H]; auto.
Qed.
Lemma F2_trans {A B C} (R : A -> B -> Prop) (S : B -> C -> Prop) (T : A -> C -> Prop) l m n :
  Forall2 R l m -> Forall2 S m n -> (forall x y z, In x l -> In y m -> In z n -> R x y -> S y z -> T x z) -> Forall2 T l n.
Proof.
  intro F; revert n. induction F as [|x y l m H F IH]; intros n G I; inversion G; subst; constructor.
  - eapply I; eauto; now left.
  - apply IH; auto. intros; eapply I; eauto; now right.
Qed.
Lemma same_entries_trans {K U V W} (R : U -> V -> Prop) (S : V -> W -> Prop) (T : U -> W -> Prop)
    (a : list (K * U)) (b : list (K * V)) (c : list (K * W)) :
  (forall x y z, In x (map snd a) -> In y (map snd b) -> In z (map snd c) -> R x y -> S y z -> T x z) ->
  same_entries R a b -> same_entries S b c -> same_entries T a c.
Proof.
  intros H (b' & P & F) (c' & Q & G).
  destruct (Permutation_F2 _ _ _ P _ G) as (c'' & Q' & G').
  exists c''. split; [now apply perm_trans with c'|].
  apply (F2_trans _ _ _ _ _ _ F G').
  intros x y z Ix Iy Iz [E1 H1] [E2 H2]. split; [congruence|].
  apply (H (snd x) (snd y) (snd z)); auto.
  - now apply in_map.
  - apply in_map. now apply (Permutation_in _ (Permutation_sym P)).
  - apply in_map. apply (Permutation_in _ (Permutation_sym Q)). now apply (Permutation_in _ (Permutation_sym Q')).
Qed.

(** ** Blocks *)
Lemma concat_opt_some (l : list (option bytes)) x :
  concat_opt l = Some x -> exists bs, l = map Some bs /\ x = List.concat bs.
Proof.
  revert x; induction l as [|o l IH]; cbn; intros x H.
  - injection H as <-. now exists [].
  - destruct o as [b|]; [|discriminate]. cbn in H.
    destruct (concat_opt l) as [y|]; [|discriminate]. injection H as <-.
    destruct (IH y eq_refl) as (bs & -> & ->). now exists (b :: bs).
Qed.
Lemma concat_opt_map_some (bs : list bytes) : concat_opt (map Some bs) = Some (List.concat bs).
Proof. induction bs as [|b bs IH]; cbn; [reflexivity|]. now rewrite IH. Qed.

Lemma blocks_same {A B} (f : A -> option bytes) (g : B -> option bytes) l m m' x :
  Forall2 (fun p q => f p = g q) l m' -> Permutation m m' -> concat_opt (map f l) = Some x ->
  exists bs bs', map f l = map Some bs /\ x = List.concat bs
    /\ concat_opt (map g m) = Some (List.concat bs') /\ Permutation bs bs'.
Proof.
  intros F P H. apply concat_opt_some in H as (bs & E & ->).
  assert (G : map f l = map g m') by (clear -F; induction F; cbn; congruence).
  assert (Q : Permutation (map g m) (map Some bs)).
  { rewrite <- E, G. now apply Permutation_map. }
  destruct (Permutation_map_inv _ _ Q) as (bs' & E' & Q').
  exists bs, bs'. rewrite E', concat_opt_map_some. auto.
Qed.

(** ** The comparison of property trees *)
Lemma pval_dict l m : pval_eq (PDict l) (PDict m) = dict_eq pkey_eq pval_eq l m.
Proof.
  cbn. unfold dict_eq. f_equal. induction l as [|[k x] l IH]; cbn; [reflexivity|]. now rewrite IH.
Qed.
Lemma pval_list l m : pval_eq (PList l) (PList m) = list_eq pval_eq l m.
Proof. cbn. revert m; induction l as [|x l IH]; intros [|y m]; cbn; try reflexivity. now rewrite IH. Qed.

Lemma pval_nested (P : pval -> Prop) :
  (forall l, Forall (fun p => P (snd p)) l -> P (PDict l)) ->
  (forall l, Forall P l -> P (PList l)) ->
  (forall a t, P (PText a t)) -> (forall t, P (PStr t)) -> (forall n, P (PInt n)) -> (forall b, P (PBytes b)) ->
  (forall l, P (PPairs l)) -> forall v, P v.
Proof.
  intros HD HL HT HS HI HB HP. fix rec 1. intros [l|a t|l|t|n|b|l].
  - apply HD. induction l as [|[k x] l IH]; constructor; [apply rec|apply IH].
  - apply HT.
  - apply HL. induction l as [|x l IH]; constructor; [apply rec|apply IH].
  - apply HS.
  - apply HI.
  - apply HB.
  - apply HP.
Qed.

Lemma reordered_dict l m : reordered (PDict l) (PDict m) <-> same_entries reordered l m.
Proof.
  split.
  - intro H; inversion H; subst. now exists m'.
  - intros (m' & P & F). now apply (RO_dict l m m').
Qed.

Lemma F2_imp_in {A B} (P Q : A -> B -> Prop) l m :
  (forall x y, In x l -> In y m -> P x y -> Q x y) -> Forall2 P l m -> Forall2 Q l m.
Proof.
  intros H F. induction F as [|x y l m HP F IH]; constructor.
  - apply H; auto; now left.
  - apply IH. intros; apply H; auto; now right.
Qed.

Lemma ok_dict l : tree_ok (PDict l) -> unique l /\ forall p, In p l -> tree_ok (snd p).
Proof. intro H; inversion H as [l' U F E| | | | | |]; subst. split; auto. now apply Forall_forall. Qed.
Lemma ok_list l : tree_ok (PList l) -> forall p, In p l -> tree_ok p.
Proof. intro H; inversion H as [|l' F E| | | | |]; subst. now apply Forall_forall. Qed.

Lemma tree_eq_reordered v : forall w, tree_ok v -> tree_ok w -> (pval_eq v w = true <-> reordered v w).
Proof.
  induction v as [l IH|l IH|a t|t|n|b|l] using pval_nested; intros w Kv Kw.
  - destruct w as [m| | | | | |]; try (cbn; split; intro H; [discriminate|inversion H]).
    apply ok_dict in Kv as [Uv Kv]. apply ok_dict in Kw as [Uw Kw]. rewrite Forall_forall in IH.
    rewrite pval_dict, (dict_eq_same pkey_eq pkey_decides _ _ _ Uv Uw), reordered_dict.
    split; intros (m' & P & F); exists m'; (split; [exact P|]); revert F; apply F2_imp_in;
      intros p q I J [E H]; (split; [exact E|]);
      apply (Permutation_in _ (Permutation_sym P)) in J; now apply (IH p I (snd q) (Kv p I) (Kw q J)).
  - destruct w as [| |m| | | |]; try (cbn; split; intro H; [discriminate|inversion H]).
    rewrite Forall_forall in IH.
    rewrite pval_list, list_eq_Forall2. split; intro F.
    + constructor. revert F. apply F2_imp_in. intros x y I J H.
      now apply (IH x I y (ok_list _ Kv x I) (ok_list _ Kw y J)).
    + inversion F as [|l' m' F' E1 E2| | | | |]; subst. revert F'. apply F2_imp_in. intros x y I J H.
      now apply (IH x I y (ok_list _ Kv x I) (ok_list _ Kw y J)).
  - destruct w; cbn; try (split; intro H; [discriminate|inversion H]).
    rewrite andb_true_iff, Z.eqb_eq, (bytes_decides _ _). split; [intros [-> ->]; constructor|intro H; inversion H; auto].
  - destruct w; cbn; try (split; intro H; [discriminate|inversion H]).
    rewrite (bytes_decides _ _). split; [intros ->; constructor|intro H; inversion H; auto].
  - destruct w; cbn; try (split; intro H; [discriminate|inversion H]).
    rewrite Z.eqb_eq. split; [intros ->; constructor|intro H; inversion H; auto].
  - destruct w; cbn; try (split; intro H; [discriminate|inversion H]).
    rewrite (bytes_decides _ _). split; [intros ->; constructor|intro H; inversion H; auto].
  - destruct w; cbn; try (split; intro H; [discriminate|inversion H]).
    assert (D : decides (list_eq (fun p q : Z * bytes => (fst p =? fst q) && bytes_eq (snd p) (snd q)))).
    { apply list_eq_decides. intros [a s] [b t]; cbn. rewrite andb_true_iff, Z.eqb_eq, (bytes_decides _ _).
      split; [intros [-> ->]; auto|intro E; injection E; auto]. }
    rewrite (D _ _). split; [intros ->; constructor|intro H; inversion H; auto].
Qed.

Lemma reordered_refl v : reordered v v.
Proof.
  induction v as [l IH|l IH|a t|t|n|b|l] using pval_nested; try constructor.
  - apply reordered_dict, same_entries_refl. intros p I. rewrite Forall_forall in IH. auto.
  - induction IH; constructor; auto.
Qed.
Lemma reordered_sym v : forall w, reordered v w -> reordered w v.
Proof.
  induction v as [l IH|l IH|a t|t|n|b|l] using pval_nested; intros w H; inversion H; subst; try constructor.
  - apply reordered_dict. rewrite Forall_forall in IH.
    assert (E : same_entries (fun v w => reordered w v) l m).
    { exists m'. split; auto. revert H1. apply F2_imp_in. intros p q I J [E R]. auto. }
    apply same_entries_sym in E. exact E.
  - rewrite Forall_forall in IH. apply F2_flip in H1. revert H1. apply F2_imp_in. auto.
Qed.
Lemma reordered_trans v : forall w u, reordered v w -> reordered w u -> reordered v u.
Proof.
  induction v as [l IH|l IH|a t|t|n|b|l] using pval_nested; intros w u H1 H2;
    inversion H1; subst; inversion H2; subst; try constructor.
  - apply reordered_dict. rewrite Forall_forall in IH.
    apply reordered_dict in H1, H2.
    apply (same_entries_trans reordered reordered reordered l m m0); [|exact H1|exact H2].
    intros x y z Ix _ _ R S. apply in_map_iff in Ix as (p & <- & I). now apply (IH p I y z).
  - rewrite Forall_forall in IH. apply (F2_trans _ _ _ _ _ _ H0 H3).
    intros x y z I _ _ R S. now apply (IH x I y z).
Qed.

(** ** The bytes of a property tree *)
Lemma blocks_perm {A B} (f : A -> option bytes) (g : B -> option bytes) l m m' x :
  Forall2 (fun p q => forall x, f p = Some x -> exists y, g q = Some y /\ Permutation x y) l m' -> Permutation m m' ->
  concat_opt (map f l) = Some x -> exists y, concat_opt (map g m) = Some y /\ Permutation x y.
Proof.
  intros F P.
  assert (S1 : forall x, concat_opt (map f l) = Some x -> exists y, concat_opt (map g m') = Some y /\ Permutation x y).
  { clear P x. induction F as [|p q l m' H F IH]; cbn; intros x E.
    - injection E as <-. exists []; auto.
    - destruct (f p) as [a|] eqn:Ea; [|discriminate]. cbn in E.
      destruct (concat_opt (map f l)) as [b|]; [|discriminate]. injection E as <-.
      destruct (H a eq_refl) as (a' & -> & Pa). destruct (IH b eq_refl) as (b' & -> & Pb).
      exists (a' ++ b'). split; [reflexivity|]. now apply Permutation_app. }
  intro E. destruct (S1 x E) as (y & Ey & Py).
  apply concat_opt_some in Ey as (bs & Em & ->).
  pose proof (Permutation_map g P) as Q. rewrite Em in Q.
  destruct (Permutation_map_inv _ _ Q) as (bs' & E' & Q').
  exists (List.concat bs'). rewrite E', concat_opt_map_some. split; [reflexivity|].
  apply (perm_trans Py). clear -Q'.
  induction Q' as [|a l l' P IH|a b l|l1 l2 l3 P1 IH1 P2 IH2]; cbn; auto.
  - now apply Permutation_app_head.
  - rewrite !app_assoc. apply Permutation_app_tail, Permutation_app_comm.
  - now apply perm_trans with (List.concat l2).
Qed.

Lemma enc_dict k l : enc_rec k (PDict l) =
  do kb <- (match k with None => Some None | Some k => do b <- enc_key k; Some (Some b) end);
  do inner <- concat_opt (map (fun p => enc_rec (Some (fst p)) (snd p)) l);
  Some ((match kb with None => [] | Some b => 67 :: b end) ++ inner ++ [0]).
Proof.
  cbn [enc_rec]. destruct (match k with None => Some None | Some k => do b <- enc_key k; Some (Some b) end) as [kb|]; [|reflexivity].
  cbn [bind]. f_equal. induction l as [|[c v] l IH]; [reflexivity|]. cbn [map concat_opt fst snd]. now rewrite <- IH.
Qed.
Lemma enc_list k l : enc_rec k (PList l) =
  do kb <- (match k with None => Some None | Some k => do b <- enc_key k; Some (Some b) end);
  concat_opt (map (enc_rec (option_map KRaw kb)) l).
Proof.
  cbn [enc_rec]. destruct (match k with None => Some None | Some k => do b <- enc_key k; Some (Some b) end) as [kb|]; [|reflexivity].
  cbn [bind]. induction l as [|v l IH]; [reflexivity|]. cbn [map concat_opt]. now rewrite <- IH.
Qed.

Lemma enc_reordered v : forall w, reordered v w -> forall k x, enc_rec k v = Some x ->
  exists y, enc_rec k w = Some y /\ Permutation x y.
Proof.
  induction v as [l IH|l IH|a t|t|n|b|l] using pval_nested; intros w R k x E;
    inversion R; subst; try (exists x; split; [exact E|reflexivity]).
  - rewrite enc_dict in *. rewrite Forall_forall in IH.
    destruct (match k with None => Some None | Some k => do b <- enc_key k; Some (Some b) end) as [kb|]; [|discriminate].
    cbn [bind] in *.
    destruct (concat_opt (map _ l)) as [i|] eqn:Ei; [|discriminate]. cbn [bind] in E. injection E as <-.
    destruct (blocks_perm (fun p => enc_rec (Some (fst p)) (snd p)) (fun p => enc_rec (Some (fst p)) (snd p)) l m m' i) as (j & -> & P); auto.
    + match goal with F : Forall2 _ l m' |- _ => revert F end. apply F2_imp_in. intros p q I J [Ek Rq] y Hy. rewrite <- Ek. now apply (IH p I (snd q) Rq).
    + cbn [bind]. eexists; split; [reflexivity|]. now apply Permutation_app_head, Permutation_app_tail.
  - rewrite enc_list in *. rewrite Forall_forall in IH.
    destruct (match k with None => Some None | Some k => do b <- enc_key k; Some (Some b) end) as [kb|]; [|discriminate].
    cbn [bind] in *. apply (blocks_perm (enc_rec (option_map KRaw kb)) (enc_rec (option_map KRaw kb)) l m m x); auto.
    match goal with F : Forall2 _ l m |- _ => revert F end. apply F2_imp_in. intros p q I J Rq y Hy. now apply (IH p I q Rq).
Qed.
