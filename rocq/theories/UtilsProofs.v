(** Proofs about packets, lines and connection strings. *)
From Verif Require Import Base BaseFacts UtilsModel SpecUtils.
From Coq Require Import ZArith List Bool Lia.
Import ListNotations.
Open Scope Z_scope.

Lemma app_len_inj {A} (p q r s : list A) : length p = length q -> p ++ r = q ++ s -> p = q /\ r = s.
Proof.
  revert q. induction p as [|x p IH]; intros [|y q] L E; try discriminate L; cbn in E; [split; [reflexivity|exact E]|].
  injection E as -> E. destruct (IH q) as [-> ->]; [cbn in L; lia|exact E|split; reflexivity].
Qed.

Lemma packets_det b l : Packets b l -> forall l', Packets b l' -> l = l'.
Proof.
  induction 1 as [|lo hi t p rest l A B C D P IH]; intros l' Q.
  - inversion Q. reflexivity.
  - inversion Q as [|lo' hi' t' p' rest' m A' B' C' D' P' E]; subst.
    assert (L : length p' = length p) by (unfold len in *; lia).
    assert (PP : p' = p /\ rest' = rest).
    { match goal with H : p' ++ rest' = p ++ rest |- _ => exact (app_len_inj _ _ _ _ L H) end. }
    destruct PP as [-> ->]. f_equal. apply IH. exact P'.
Qed.

Lemma string_det d s r s' r' : reads_string d s r -> reads_string d s' r' -> s = s' /\ r = r'.
Proof.
  intros [-> N] [E N']. revert s' E N'.
  induction s as [|x s IH]; intros [|y s'] E N'; cbn in E.
  - injection E as <-. auto.
  - injection E as <- E. exfalso. apply N'. left. reflexivity.
  - injection E as -> E. exfalso. apply N. left. reflexivity.
  - injection E as -> E. destruct (IH (fun H => N (or_intror H)) s' E (fun H => N' (or_intror H))) as [-> ->]. auto.
Qed.

Lemma means_det p c c' : means p c -> means p c' -> c = c'.
Proof.
  destruct c as [pw n v|src col u t|line], c' as [pw' n' v'|src' col' u' t'|line']; cbn;
    intros [T H] [T' H']; try congruence.
  - destruct H as (a & b & A & B & C), H' as (a' & b' & A' & B' & C').
    destruct (string_det _ _ _ _ _ A A') as [-> ->]. destruct (string_det _ _ _ _ _ B B') as [-> ->].
    destruct (string_det _ _ _ _ _ C C') as [-> _]. reflexivity.
  - destruct H as (a & lo & hi & b & A & L & E & B & C), H' as (a' & lo' & hi' & b' & A' & L' & E' & B' & C').
    destruct (string_det _ _ _ _ _ A A') as [-> Q]. injection Q as -> -> ->.
    destruct (string_det _ _ _ _ _ B B') as [-> ->]. destruct (string_det _ _ _ _ _ C C') as [-> _]. congruence.
  - destruct (string_det _ _ _ _ _ H H') as [-> _]. reflexivity.
Qed.

Lemma received_det b l l' : Received b l -> Received b l' -> l = l'.
Proof.
  intros (ps & P & F) (ps' & P' & F'). rewrite <- (packets_det _ _ P _ P') in F'. clear P P' ps' b.
  revert l' F'. induction F as [|p c ps l M F IH]; intros l' F'; inversion F' as [|? c' ? l0 M' G]; subst; [reflexivity|].
  rewrite (means_det _ _ _ M M'), (IH _ G). reflexivity.
Qed.

Lemma size_split n : 0 <= n < 65536 ->
  0 <= Z.land n 255 < 256 /\ 0 <= Z.shiftr n 8 < 256 /\ Z.land n 255 + 256 * Z.shiftr n 8 = n.
Proof.
  intros H. change 255 with (Z.ones 8). rewrite Z.land_ones, Z.shiftr_div_pow2 by lia. change (2 ^ 8) with 256.
  Z.to_euclidean_division_equations. lia.
Qed.

Lemma make_packet_ok t fmt args data : ttd_pack fmt args = Some data -> 0 <= t < 256 ->
  (len data + 3 < 65536 ->
   exists b, make_packet t fmt args = Some b /\
    forall rest l, Packets rest l -> Packets (b ++ rest) ((t, data) :: l)) /\
  (65536 <= len data + 3 -> make_packet t fmt args = None).
Proof.
  intros E T. unfold make_packet. rewrite E. cbn [bind].
  assert (L0 : 0 <= len data) by (unfold len; lia). split; intros L.
  - destruct (size_split (len data + 3)) as (A & B & C); [lia|].
    replace (byteb (Z.shiftr (len data + 3) 8)) with true
      by (symmetry; unfold byteb; apply andb_true_iff; split; [apply Z.leb_le|apply Z.ltb_lt]; lia).
    replace (byteb t) with true
      by (symmetry; unfold byteb; apply andb_true_iff; split; [apply Z.leb_le|apply Z.ltb_lt]; lia).
    eexists. split; [reflexivity|]. intros rest l P. rewrite <- app_assoc.
    change ([Z.land (len data + 3) 255; Z.shiftr (len data + 3) 8; t] ++ ?x)
      with (Z.land (len data + 3) 255 :: Z.shiftr (len data + 3) 8 :: t :: x).
    apply one_packet; assumption.
  - replace (byteb (Z.shiftr (len data + 3) 8)) with false; [reflexivity|].
    symmetry. unfold byteb. apply andb_false_iff. right. apply Z.ltb_ge.
    rewrite Z.shiftr_div_pow2 by lia. change (2 ^ 8) with 256. Z.to_euclidean_division_equations. lia.
Qed.


Definition chat_data (text : bytes) : bytes := (CHAT_SOURCE ++ [0]) ++ [1; 0] ++ [0] ++ text ++ [0].

Lemma chat_pack text :
  ttd_pack [Fz; FH; Fz; Fz] [FStr CHAT_SOURCE; FInt 1; FStr []; FStr text] = Some (chat_data text).
Proof. unfold chat_data. cbn. rewrite app_nil_r. reflexivity. Qed.

Lemma chat_means text : ~ In 0 text -> means (8, chat_data text) (Chat CHAT_SOURCE 1 [] text).
Proof.
  intros N. split; [reflexivity|]. unfold chat_data. cbn [snd].
  exists ([0] ++ text ++ [0]), 1, 0, (text ++ [0]). split; [|split; [lia|split; [lia|split]]].
  - split; [rewrite <- app_assoc; reflexivity|]. cbn. intuition discriminate.
  - split; [reflexivity|]. intros [].
  - split; [reflexivity|exact N].
Qed.

Lemma chat_len text : len (chat_data text) = len text + 11.
Proof. unfold chat_data, len. rewrite !app_length. cbn [length CHAT_SOURCE]. lia. Qed.

Lemma ends_app s : ends_nl (s ++ [10]) = true.
Proof. unfold ends_nl. rewrite last_last. reflexivity. Qed.

Lemma ends_false s : ~ In 10 s -> ends_nl s = false.
Proof.
  intros N. unfold ends_nl. apply Z.eqb_neq. intros E. apply N. rewrite <- E.
  destruct s as [|x s]; [discriminate E|]. clear. revert x. induction s as [|y s IH]; intros x; [left; reflexivity|].
  right. exact (IH y).
Qed.

Lemma rstrip_none s : ~ In 10 s -> rstrip_nl s = s.
Proof.
  induction s as [|x s IH]; intros N; [reflexivity|]. cbn [rstrip_nl]. rewrite IH by (intros H; apply N; right; exact H).
  destruct s; [|reflexivity]. replace (x =? 10) with false; [reflexivity|]. symmetry. apply Z.eqb_neq. intros ->. apply N. left. reflexivity.
Qed.

Lemma rstrip_line s : ~ In 10 s -> rstrip_nl (s ++ [10]) = s.
Proof.
  induction s as [|x s IH]; intros N; [reflexivity|]. change ((x :: s) ++ [10]) with (x :: (s ++ [10])). cbn [rstrip_nl].
  rewrite IH by (intros H; apply N; right; exact H).
  destruct s; [|reflexivity]. replace (x =? 10) with false; [reflexivity|]. symmetry. apply Z.eqb_neq. intros ->. apply N. left. reflexivity.
Qed.

(** the loop over well-behaved messages *)
Lemma log_lines ms : Forall printed ms -> forall prev rest, ~ In 0 prev -> ~ In 10 prev ->
  exists ls tail, Lines (prev ++ concat ms) ls tail /\
   (Forall (fun l => len l + 14 < 65536) ls ->
    exists b, log_loop prev (map Some ms ++ None :: rest) = Some (b, true) /\
      forall r ps cs, Packets r ps -> Forall2 means ps cs ->
        exists ps', Packets (b ++ r) ps' /\ Forall2 means ps' (map (Chat CHAT_SOURCE 1 []) ls ++ cs)).
Proof.
  induction ms as [|m ms IH]; intros F prev rest N0 N10.
  - exists [], prev. split; [split; [cbn; rewrite app_nil_r; reflexivity|split; [constructor|exact N10]]|].
    intros _. exists []. split; [reflexivity|]. intros r ps cs P M. exists ps. split; assumption.
  - inversion F as [|? ? [Z0 PM] FM]; subst. cbn [map app log_loop].
    destruct PM as [NN | (s & -> & NN)].
    + rewrite (ends_false m NN).
      destruct (IH FM (prev ++ m) rest) as (ls & tail & L & B).
      { intros I. apply in_app_or in I as [I|I]; contradiction. } { intros I. apply in_app_or in I as [I|I]; contradiction. }
      exists ls, tail. split; [|exact B]. cbn [concat]. rewrite app_assoc. exact L.
    + rewrite ends_app, (rstrip_line s NN).
      destruct (IH FM [] rest) as (ls & tail & (L1 & L2 & L3) & B). { intros []. } { intros []. }
      exists ((prev ++ s) :: ls), tail. split.
      * split; [|split; [|exact L3]].
        -- cbn [concat map]. cbn [app] in L1. rewrite L1. rewrite <- !app_assoc. reflexivity.
        -- constructor; [|exact L2]. intros I. apply in_app_or in I as [I|I]; contradiction.
      * intros S. inversion S as [|? ? S1 S2]; subst.
        destruct (B S2) as (b & E & P).
        destruct (make_packet_ok ADMIN_EXTERNAL_CHAT _ _ _ (chat_pack (prev ++ s))) as [[p [Ep Pp]] _].
        { unfold ADMIN_EXTERNAL_CHAT. lia. } { rewrite chat_len. lia. }
        rewrite Ep. cbn [bind]. rewrite E. cbn [bind]. eexists. split; [reflexivity|].
        intros r ps cs PR M. destruct (P r ps cs PR M) as (ps' & P1 & M1).
        exists ((8, chat_data (prev ++ s)) :: ps'). split.
        -- rewrite <- app_assoc. apply Pp. exact P1.
        -- cbn [map app]. constructor; [|exact M1]. apply chat_means.
           intros I. apply in_app_or in I as [I|I]; [contradiction|]. apply Z0. apply in_or_app. left. exact I.
Qed.

(** ** Connection strings *)

Lemma split1_none c s : ~ In c s -> split1 c s = None.
Proof.
  induction s as [|x s IH]; intros N; [reflexivity|]. cbn [split1].
  replace (x =? c) with false by (symmetry; apply Z.eqb_neq; intros ->; apply N; left; reflexivity).
  rewrite IH; [reflexivity|]. intros H. apply N. right. exact H.
Qed.
Lemma split1_app c a b : ~ In c a -> split1 c (a ++ c :: b) = Some (a, b).
Proof.
  induction a as [|x a IH]; intros N; cbn [app split1]; [rewrite Z.eqb_refl; reflexivity|].
  replace (x =? c) with false by (symmetry; apply Z.eqb_neq; intros ->; apply N; left; reflexivity).
  rewrite IH; [reflexivity|]. intros H. apply N. right. exact H.
Qed.
Lemma rsplit1_none c s : ~ In c s -> rsplit1 c s = None.
Proof.
  induction s as [|x s IH]; intros N; [reflexivity|]. cbn [rsplit1].
  rewrite IH by (intros H; apply N; right; exact H).
  replace (x =? c) with false by (symmetry; apply Z.eqb_neq; intros ->; apply N; left; reflexivity). reflexivity.
Qed.
Lemma rsplit1_app c a b : ~ In c b -> rsplit1 c (a ++ c :: b) = Some (a, b).
Proof.
  intros N. induction a as [|x a IH]; cbn [app rsplit1].
  - rewrite (rsplit1_none c b N), Z.eqb_refl. reflexivity.
  - rewrite IH. reflexivity.
Qed.

Lemma digits_ok s : Forall (fun c => 48 <= c <= 57) s -> forall acc,
  digits_value acc s = Some (fold_left (fun a c => 10 * a + (c - 48)) s acc).
Proof.
  induction 1 as [|c s C F IH]; intros acc; [reflexivity|]. cbn [digits_value fold_left]. unfold digit.
  replace ((48 <=? c) && (c <=? 57)) with true by (symmetry; apply andb_true_iff; split; apply Z.leb_le; lia).
  cbn [bind]. apply IH.
Qed.

Lemma py_int_ok s : is_digits s -> py_int s = Some (number_of s).
Proof. intros [N F]. unfold py_int, number_of. destruct s as [|c s]; [congruence|]. apply (digits_ok (c :: s) F 0). Qed.

Lemma digits_no_colon s : is_digits s -> ~ In COLON s.
Proof. intros [_ F] I. rewrite Forall_forall in F. specialize (F _ I). unfold COLON in F. lia. Qed.

(** ** The watch loop *)

Lemma wrun_app a b : forall w, wrun w (a ++ b) = do w <- wrun w a; wrun w b.
Proof.
  induction a as [|e a IH]; intros w; [reflexivity|]. cbn [app wrun]. destruct (wstep w e); [|reflexivity]. cbn [bind]. apply IH.
Qed.

Lemma wrun_end a e w w' : wrun w (a ++ [e]) = Some w' -> exists w1, wrun w a = Some w1 /\ wstep w1 e = Some w'.
Proof.
  rewrite wrun_app. destruct (wrun w a) as [w1|]; [|discriminate]. cbn [bind wrun]. intros E. exists w1. split; [reflexivity|].
  destruct (wstep w1 e); [exact E|discriminate].
Qed.

(** the set of changed files only shrinks when a build begins *)
Lemma modified_kept l : forall w w', wrun w l = Some w' -> ~ In Begin l -> forall f, In f (w_modified w) -> In f (w_modified w').
Proof.
  induction l as [|e l IH]; intros w w' R N f I; cbn [wrun] in R; [congruence|].
  destruct (wstep w e) as [w1|] eqn:S; [|discriminate R]. cbn [bind] in R.
  apply (IH w1 w' R (fun H => N (or_intror H))).
  destruct e; unfold wstep in S; destruct (w_phase w); try discriminate S; apply some_inj in S; subst w1; cbn [w_modified];
    try exact I; try (unfold on_modified; destruct (w_list w) as [L|]; [destruct (existsb (Nat.eqb f0) L); [right|]|]; exact I).
  exfalso. apply N. left. reflexivity.
Qed.

(** versions *)
Lemma disk_kept l f : forall w w', wrun w l = Some w' -> ~ In (Change f) l -> w_disk w' f = w_disk w f.
Proof.
  induction l as [|e l IH]; intros w w' R N; cbn [wrun] in R; [congruence|].
  destruct (wstep w e) as [w1|] eqn:S; [|discriminate R]. cbn [bind] in R.
  rewrite (IH w1 w' R (fun H => N (or_intror H))).
  destruct e; unfold wstep in S; destruct (w_phase w); try discriminate S; apply some_inj in S; subst w1; cbn [w_disk]; try reflexivity;
    unfold bump; destruct (Nat.eqb_spec f f0); try reflexivity; subst; exfalso; apply N; left; reflexivity.
Qed.
