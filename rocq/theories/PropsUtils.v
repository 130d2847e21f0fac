(** C66: live reload talks to the game; C67: watch mode misses no change. *)
From Verif Require Import Base BaseFacts UtilsModel SpecUtils UtilsProofs.
From Coq Require Import ZArith List Bool Lia.
From Coq Require String Ascii.
Import String.StringSyntax.
Delimit Scope string_scope with string.
Import ListNotations.
Open Scope Z_scope.

(** ** C66 *)

(** The game reads every stream in one way only. *)
Theorem C66_unambiguous : forall b l l', Received b l -> Received b l' -> l = l'.
Proof. exact received_det. Qed.

(** What arrives: the password, one chat message for every complete line
    that was printed before the end marker, in order, then the command that
    reloads the newgrfs. *)
Theorem C66_wire : forall password ms rest,
  ~ In 0 password -> len password + 28 < 65536 -> Forall printed ms ->
  exists ls tail, Lines (concat ms) ls tail /\
   (Forall (fun l => len l + 14 < 65536) ls ->
    exists b, admin_logging password (map Some ms ++ None :: rest) = Some b /\
      Received b (Join password ADMIN_NAME ADMIN_VERSION :: map (Chat CHAT_SOURCE 1 []) ls ++ [Console RELOAD])).
Proof.
  intros password ms rest N L F.
  destruct (log_lines ms F [] rest) as (ls & tail & LN & B). { intros []. } { intros []. }
  exists ls, tail. split; [exact LN|]. intros S. destruct (B S) as (b & E & P).
  assert (EJ : ttd_pack [Fz; Fz; Fz] [FStr password; FStr ADMIN_NAME; FStr ADMIN_VERSION] =
               Some ((password ++ [0]) ++ (ADMIN_NAME ++ [0]) ++ (ADMIN_VERSION ++ [0]))).
  { reflexivity. }
  destruct (make_packet_ok ADMIN_JOIN _ _ _ EJ) as [[j [Ej Pj]] _]. { unfold ADMIN_JOIN. lia. }
  { unfold len in *. rewrite !app_length. cbn [length ADMIN_NAME ADMIN_VERSION]. lia. }
  destruct (make_packet_ok ADMIN_RCON [Fz] [FStr RELOAD] (RELOAD ++ [0]) eq_refl) as [[c [Ec Pc]] _]. { unfold ADMIN_RCON. lia. }
  { cbn. lia. }
  unfold admin_logging. rewrite Ej. cbn [bind]. rewrite E. cbn [bind]. cbv iota. rewrite Ec. cbn [bind].
  eexists. split; [reflexivity|].
  destruct (P (c ++ []) [(ADMIN_RCON, RELOAD ++ [0])] [Console RELOAD]) as (ps & P1 & M1).
  - apply Pc. constructor.
  - constructor; [|constructor]. split; [reflexivity|]. split; [reflexivity|]. cbn. intuition discriminate.
  - rewrite app_nil_r in P1.
    eexists ((ADMIN_JOIN, _) :: ps). split; [apply Pj; exact P1|]. constructor; [|exact M1].
    split; [reflexivity|]. exists ((ADMIN_NAME ++ [0]) ++ (ADMIN_VERSION ++ [0])), (ADMIN_VERSION ++ [0]). cbn [snd].
    split; [split; [rewrite <- app_assoc; reflexivity|exact N]|].
    split; [split; [rewrite <- app_assoc; reflexivity|cbn; intuition discriminate]|].
    split; [reflexivity|cbn; intuition discriminate].
Qed.
(** The words themselves, character by character. *)
Definition chars (s : String.string) : list Z := map (fun a => Z.of_N (Ascii.N_of_ascii a)) (String.list_ascii_of_string s).
Theorem C66_words : ADMIN_NAME = chars "grf-py live reload"%string /\ ADMIN_VERSION = chars "1.0"%string /\ CHAT_SOURCE = chars "grf-py"%string /\ RELOAD = chars "reload_newgrfs"%string.
Proof. repeat split; reflexivity. Qed.
Example C66_wire_meets : exists ls tail b,
  Forall printed [[97; 98]; [99; 10]; [100; 10]; [101]] /\
  Lines (concat [[97; 98]; [99; 10]; [100; 10]; [101]]) ls tail /\ ls = [[97; 98; 99]; [100]] /\ tail = [101] /\
  admin_logging [112; 119] (map Some [[97; 98]; [99; 10]; [100; 10]; [101]] ++ [None]) = Some b /\ len b = 79.
Proof.
  exists [[97; 98; 99]; [100]], [101]. eexists.
  split.
  { apply Forall_cons; [split; [cbn; intuition discriminate|left; cbn; intuition discriminate]|].
    apply Forall_cons; [split; [cbn; intuition discriminate|right; exists [99]; split; [reflexivity|cbn; intuition discriminate]]|].
    apply Forall_cons; [split; [cbn; intuition discriminate|right; exists [100]; split; [reflexivity|cbn; intuition discriminate]]|].
    apply Forall_cons; [split; [cbn; intuition discriminate|left; cbn; intuition discriminate]|]. apply Forall_nil. }
  split; [split; [reflexivity|split; [repeat apply Forall_cons; try apply Forall_nil|]]; cbn; intuition discriminate|].
  split; [reflexivity|]. split; [reflexivity|]. split; [reflexivity|]. reflexivity.
Qed.

(** Nothing queued behind the end marker is sent, and no reload is asked for
    before it: the reload command follows a finished build only. *)
Theorem C66_end : forall password q q' rest, ~ In None q ->
  admin_logging password (q ++ None :: rest) = admin_logging password (q ++ None :: q') /\
  (forall b l, admin_logging password q = Some b -> Received b l -> ~ In (Console RELOAD) l).
Proof.
  intros password q q' rest N. split.
  - unfold admin_logging. destruct (make_packet ADMIN_JOIN _ _); [|reflexivity]. cbn [bind].
    assert (E : forall q prev, ~ In None q -> log_loop prev (q ++ None :: rest) = log_loop prev (q ++ None :: q')).
    { clear. induction q as [|[m|] q IH]; intros prev N; cbn [app log_loop]; [reflexivity| |exfalso; apply N; left; reflexivity].
      destruct (ends_nl m); [|apply IH; intros H; apply N; right; exact H].
      destruct (make_packet _ _ _); [|reflexivity]. cbn [bind]. rewrite (IH [] (fun H => N (or_intror H))). reflexivity. }
    rewrite (E q [] N). reflexivity.
  - intros b l E (ps & P & M) I. unfold admin_logging in E.
    destruct (ttd_pack [Fz; Fz; Fz] [FStr password; FStr ADMIN_NAME; FStr ADMIN_VERSION]) as [jd|] eqn:TJ; [|discriminate TJ].
    destruct (make_packet_ok ADMIN_JOIN _ _ _ TJ) as [OK BAD]. { unfold ADMIN_JOIN. lia. }
    destruct (Z.lt_ge_cases (len jd + 3) 65536) as [LT|GE]; [|rewrite (BAD GE) in E; discriminate E].
    destruct (OK LT) as (j & Ej & Pj). rewrite Ej in E. cbn [bind] in E.
    assert (LOOP : forall q prev body fin, ~ In None q -> log_loop prev q = Some (body, fin) ->
      fin = false /\ exists ps, Packets body ps /\ Forall (fun p => fst p = 8) ps).
    { clear. induction q as [|[m|] q IH]; intros prev body fin N E; cbn [log_loop] in E.
      - apply some_inj, pair_inj in E as [<- <-]. split; [reflexivity|]. exists []. split; constructor.
      - destruct (ends_nl m); [|exact (IH _ _ _ (fun H => N (or_intror H)) E)].
        destruct (make_packet_ok ADMIN_EXTERNAL_CHAT _ _ _ (chat_pack (prev ++ rstrip_nl m))) as [OK BAD]. { unfold ADMIN_EXTERNAL_CHAT. lia. }
        destruct (Z.lt_ge_cases (len (chat_data (prev ++ rstrip_nl m)) + 3) 65536) as [LT|GE]; [|rewrite (BAD GE) in E; discriminate E].
        destruct (OK LT) as (c & Ec & Pc). rewrite Ec in E. cbn [bind] in E.
        destruct (log_loop [] q) as [[r f]|] eqn:EL; [|discriminate E]. cbn [bind] in E. apply some_inj, pair_inj in E as [<- <-].
        destruct (IH [] r f (fun H => N (or_intror H)) EL) as (-> & ps & P & A). split; [reflexivity|].
        eexists. split; [apply Pc; exact P|]. constructor; [reflexivity|exact A].
      - exfalso. apply N. left. reflexivity. }
    destruct (log_loop [] q) as [[body fin]|] eqn:EL; [|discriminate E]. cbn [bind] in E.
    destruct (LOOP q [] body fin N EL) as (-> & ps0 & P0 & A0). cbv iota in E. apply some_inj in E. subst b.
    rewrite (packets_det _ _ P _ (Pj _ _ P0)) in M.
    inversion M as [|? c1 ? l1 M1 MR]; subst.
    assert (NC : forall ps l, Forall (fun p : Z * bytes => fst p = 8) ps -> Forall2 means ps l -> ~ In (Console RELOAD) l).
    { clear. intros ps l A F. induction F as [|p c ps l M F IH]; [intros []|]. inversion A as [|? ? A1 A2]; subst.
      intros [->|I]; [destruct M as [T _]; rewrite A1 in T; discriminate T|exact (IH A2 I)]. }
    destruct I as [->|I]; [destruct M1 as [T _]; discriminate T|]. exact (NC ps0 l1 A0 MR I).
Qed.

(** Packets are refused exactly when their length does not fit its field. *)
Theorem C66_too_long : forall text,
  make_packet ADMIN_EXTERNAL_CHAT [Fz; FH; Fz; Fz] [FStr CHAT_SOURCE; FInt 1; FStr []; FStr text] = None <-> 65522 <= len text.
Proof.
  intros text. destruct (make_packet_ok ADMIN_EXTERNAL_CHAT _ _ _ (chat_pack text)) as [OK BAD]. { unfold ADMIN_EXTERNAL_CHAT. lia. }
  rewrite chat_len in OK, BAD. split.
  - intros E. destruct (Z.lt_ge_cases (len text + 11 + 3) 65536) as [LT|GE]; [|lia].
    destruct (OK LT) as (b & Eb & _). rewrite Eb in E. discriminate E.
  - intros L. apply BAD. lia.
Qed.

(** "Everything printed arrives": the text after the last newline does not,
    blank lines at the end of a message do not, and what is printed after the
    end marker (the build's own "Reloading newgrfs.") does not. *)
Theorem C66_all_arrives_refuted :
  admin_logging [112] [Some [97; 10]; Some [98]; None] = admin_logging [112] [Some [97; 10]; None] /\
  admin_logging [112] [Some [97; 10; 10]; None] = admin_logging [112] [Some [97; 10]; None] /\
  admin_logging [112] [Some [97; 10]; None; Some [98; 10]] = admin_logging [112] [Some [97; 10]; None].
Proof. repeat split; reflexivity. Qed.

(** A password with a NUL byte arrives cut, as another password. *)
Theorem C66_nul_refuted : exists b, admin_logging [112; 0; 119] [None] = Some b /\
  exists t payload, b = t ++ [0] ++ payload /\ len t = 2 /\
    exists a, reads_string payload [112] a.
Proof.
  eexists. split; [cbv; reflexivity|]. eexists [_; _], _. split; [cbn [app]; reflexivity|]. split; [reflexivity|].
  eexists. split; [cbn [app]; reflexivity|cbn; intuition discriminate].
Qed.

(** ** The connection string password@address:port *)

Theorem C66_address : forall pw addr port,
  ~ In AT pw -> is_digits port ->
  live_reload (pw ++ AT :: addr ++ COLON :: port) = Some (addr, number_of port, pw) /\
  (~ In COLON pw -> ~ In COLON addr -> live_reload (pw ++ AT :: addr) = Some (addr, 3977, pw)) /\
  live_reload (pw ++ COLON :: port) = Some (LOCALHOST, number_of port, pw) /\
  (~ In COLON pw -> live_reload pw = Some (LOCALHOST, 3977, pw)).
Proof.
  intros pw addr port NA D. pose proof (digits_no_colon port D) as NC. unfold live_reload. split; [|split; [|split]].
  - replace (pw ++ AT :: addr ++ COLON :: port) with ((pw ++ AT :: addr) ++ COLON :: port) by (rewrite <- app_assoc; reflexivity).
    rewrite (rsplit1_app _ _ _ NC), (py_int_ok port D). cbn [bind]. rewrite (split1_app _ _ _ NA). reflexivity.
  - intros N1 N2. rewrite rsplit1_none.
    + cbn [bind]. rewrite (split1_app _ _ _ NA). reflexivity.
    + intros I. apply in_app_or in I as [I|[I|I]]; [contradiction|discriminate I|contradiction].
  - rewrite (rsplit1_app _ _ _ NC), (py_int_ok port D). cbn [bind]. rewrite (split1_none _ _ NA). reflexivity.
  - intros N1. rewrite (rsplit1_none _ _ N1). cbn [bind]. rewrite (split1_none _ _ NA). reflexivity.
Qed.
Example C66_address_meets : ~ In AT [112; 119] /\ is_digits [51; 57; 55; 55] /\ number_of [51; 57; 55; 55] = 3977.
Proof. split; [cbn; intuition discriminate|]. split; [split; [discriminate|repeat constructor; lia]|reflexivity]. Qed.

(** The same with the characters written out. *)
Theorem C66_connection_string : forall pw addr port, (forall c, In c (chars "@"%string) -> ~ In c pw) -> is_digits port ->
  live_reload (pw ++ chars "@"%string ++ addr ++ chars ":"%string ++ port) = Some (addr, number_of port, pw) /\
  live_reload (pw ++ chars ":"%string ++ port) = Some (chars "localhost"%string, number_of port, pw) /\
  (~ In 58 pw -> live_reload pw = Some (chars "localhost"%string, 3977, pw)).
Proof. intros pw addr port NA D. destruct (C66_address pw addr port (NA _ (or_introl eq_refl)) D) as (A & _ & B & C). auto. Qed.
Print Assumptions C66_connection_string.

(** Passwords with an @ are cut at the first one; a colon in a password is
    taken for the port. *)
Theorem C66_password_refuted : forall a b addr port, ~ In AT a -> is_digits port ->
  live_reload ((a ++ AT :: b) ++ AT :: addr ++ COLON :: port) = Some (b ++ AT :: addr, number_of port, a) /\
  live_reload ([112; 58; 113] ++ AT :: LOCALHOST) = None.
Proof.
  intros a b addr port NA D. pose proof (digits_no_colon port D) as NC. split; [|reflexivity]. unfold live_reload.
  replace ((a ++ AT :: b) ++ AT :: addr ++ COLON :: port) with ((a ++ AT :: b ++ AT :: addr) ++ COLON :: port)
    by (rewrite <- !app_assoc; cbn [app]; rewrite <- app_assoc; reflexivity).
  rewrite (rsplit1_app _ _ _ NC), (py_int_ok port D). cbn [bind]. rewrite (split1_app _ _ _ NA). reflexivity.
Qed.

(** ** C67: the watch loop, under every schedule *)

(** A change of a watched file is never lost: it is still pending, or a build
    has begun since. *)
Theorem C67_no_change_lost : forall d l1 f l2 w1 w L,
  wrun (wstart d) l1 = Some w1 -> w_list w1 = Some L -> In f L ->
  wrun (wstart d) (l1 ++ Change f :: l2) = Some w ->
  In f (w_modified w) \/ In Begin l2.
Proof.
  intros d l1 f l2 w1 w L R1 WL IL R.
  assert (D : In Begin l2 \/ ~ In Begin l2).
  { clear. induction l2 as [|e l IH]; [right; intros []|]. destruct IH as [IH|IH]; [left; right; exact IH|].
    destruct e; try (right; intros [H|H]; [discriminate H|contradiction]). left. left. reflexivity. }
  destruct D as [D|D]; [right; exact D|left].
  rewrite wrun_app, R1 in R. cbn [bind wrun] in R.
  change (wstep w1 (Change f)) with (Some (mk_watch (bump (w_disk w1) f) (w_list w1) (on_modified w1 f) (w_phase w1) (w_seen w1) (w_start w1))) in R.
  cbn [bind] in R. apply (modified_kept _ _ _ R D). cbn [w_modified]. unfold on_modified. rewrite WL.
  replace (existsb (Nat.eqb f) L) with true; [left; reflexivity|]. symmetry. apply existsb_exists. exists f. split; [exact IL|apply Nat.eqb_refl].
Qed.

(** A pending change starts a build at the next look; without one, nothing
    is built. *)
Theorem C67_reacts : forall w, w_phase w = Idle ->
  exists w', wstep w Check = Some w' /\ w_modified w' = w_modified w /\
  (w_phase w' = Ready <-> w_modified w <> [] \/ w_list w = None) /\
  (w_phase w' = Ready -> exists w2, wstep w' Begin = Some w2 /\ w_phase w2 = Building (fun _ => None) /\ w_modified w2 = []).
Proof.
  intros w P. unfold wstep. rewrite P. eexists. split; [reflexivity|]. cbn [w_phase w_modified]. split; [reflexivity|]. split.
  - destruct (w_modified w) as [|f m], (w_list w) as [L|]; split; try discriminate; try reflexivity;
      try (intros [H|H]; congruence); intros _; try (left; discriminate); right; reflexivity.
  - destruct (match w_modified w with [] => match w_list w with Some _ => false | None => true end | _ :: _ => true end); [|discriminate].
    intros _. eexists. split; [reflexivity|]. split; reflexivity.
Qed.

(** A failed build leaves everything as it was: the same files are watched,
    the old grf stays, the next change is noticed. *)
Theorem C67_failure : forall w w', wstep w Fail = Some w' ->
  w_list w' = w_list w /\ w_modified w' = w_modified w /\ w_seen w' = w_seen w /\ w_phase w' = Idle.
Proof.
  intros w w' E. unfold wstep in E. destruct (w_phase w); try discriminate E. apply some_inj in E. subst w'. repeat split.
Qed.

(** once a build has begun, the reads are of the versions then on disk, for
    files that did not change since *)
Lemma reads_ok l f v : forall w w' r, wrun w l = Some w' -> ~ In (Change f) l -> ~ In Begin l -> (forall fs, ~ In (Done fs) l) -> ~ In Fail l ->
  w_phase w = Building r -> w_disk w f = v -> (r f = None \/ r f = Some v) ->
  exists r', w_phase w' = Building r' /\ (r' f = None \/ r' f = Some v).
Proof.
  induction l as [|e l IH]; intros w w' r R NC NB ND NF PH DV RV; cbn [wrun] in R.
  - apply some_inj in R. subst w'. exists r. split; assumption.
  - destruct (wstep w e) as [w1|] eqn:S; [|discriminate R]. cbn [bind] in R.
    assert (Q1 : ~ In (Change f) l) by (intros H; apply NC; right; exact H).
    assert (Q2 : ~ In Begin l) by (intros H; apply NB; right; exact H).
    assert (Q3 : forall fs, ~ In (Done fs) l) by (intros fs H; apply (ND fs); right; exact H).
    assert (Q4 : ~ In Fail l) by (intros H; apply NF; right; exact H).
    destruct e as [g| | |g|fs|]; unfold wstep in S; rewrite PH in S; try discriminate S; apply some_inj in S; subst w1.
    + refine (IH _ w' r R Q1 Q2 Q3 Q4 eq_refl _ RV). cbn [w_disk]. unfold bump.
      destruct (Nat.eqb_spec f g) as [->|]; [exfalso; apply NC; left; reflexivity|exact DV].
    + refine (IH _ w' _ R Q1 Q2 Q3 Q4 eq_refl DV _). cbn beta.
      destruct (Nat.eqb_spec f g) as [->|]; [right; congruence|exact RV].
    + exfalso. apply (ND fs). left. reflexivity.
    + exfalso. apply NF. left. reflexivity.
Qed.

(** when nothing is building, the grf stays as it is *)
Lemma seen_kept l : forall w w', wrun w l = Some w' -> ~ In Begin l -> (forall r, w_phase w <> Building r) -> w_seen w' = w_seen w.
Proof.
  induction l as [|e l IH]; intros w w' R NB NP; cbn [wrun] in R; [congruence|].
  destruct (wstep w e) as [w1|] eqn:S; [|discriminate R]. cbn [bind] in R.
  assert (Q : ~ In Begin l) by (intros H; apply NB; right; exact H).
  destruct e as [g| | |g|fs|]; unfold wstep in S; destruct (w_phase w) as [| |r] eqn:PH; try discriminate S;
    try (exfalso; exact (NP r eq_refl)); try (exfalso; apply NB; left; reflexivity); apply some_inj in S; subst w1;
    rewrite (IH _ w' R Q); try reflexivity; cbn [w_phase]; try discriminate.
  intros r. destruct (match w_modified w with [] => _ | _ => _ end); discriminate.
Qed.

(** When the loop rests, the grf is up to date: after a successful build, if
    nothing is pending, what the grf holds of every file that was watched
    before and after that build is the file's current contents. *)
Theorem C67_up_to_date : forall d l1 l2 files l3 w1 w L f,
  wrun (wstart d) l1 = Some w1 -> w_list w1 = Some L -> In f L -> In f files ->
  wrun (wstart d) (l1 ++ Begin :: l2 ++ Done files :: l3) = Some w ->
  ~ In Begin l2 -> ~ In Begin l3 -> (forall fs, ~ In (Done fs) l2) -> ~ In Fail l2 ->
  w_modified w = [] -> w_seen w f = None \/ w_seen w f = Some (w_disk w f).
Proof.
  intros d l1 l2 files l3 w1 w L f R1 WL IL IF R NB2 NB3 ND NF WM.
  rewrite wrun_app, R1 in R. cbn [bind wrun] in R.
  destruct (wstep w1 Begin) as [w2|] eqn:S2; [|discriminate R]. cbn [bind] in R. rewrite wrun_app in R.
  destruct (wrun w2 l2) as [w3|] eqn:R2; [|discriminate R]. cbn [bind wrun] in R.
  destruct (wstep w3 (Done files)) as [w4|] eqn:S4; [|discriminate R]. cbn [bind] in R.
  assert (P2 : w_phase w2 = Building (fun _ => None) /\ w_list w2 = Some L).
  { unfold wstep in S2. destruct (w_phase w1); try discriminate S2. apply some_inj in S2. subst w2. split; [reflexivity|exact WL]. }
  destruct P2 as [P2 L2].
  (* watched throughout l2 *)
  assert (LK : forall l w w', wrun w l = Some w' -> (forall fs, ~ In (Done fs) l) -> w_list w' = w_list w).
  { clear. induction l as [|e l IH]; intros w w' R N; cbn [wrun] in R; [congruence|].
    destruct (wstep w e) as [w1|] eqn:S; [|discriminate R]. cbn [bind] in R.
    rewrite (IH w1 w' R (fun fs H => N fs (or_intror H))).
    destruct e as [g| | |g|fs|]; unfold wstep in S; destruct (w_phase w); try discriminate S; apply some_inj in S; subst w1; try reflexivity.
    exfalso. apply (N fs). left. reflexivity. }
  assert (L3 : w_list w3 = Some L) by (rewrite (LK _ _ _ R2 ND); exact L2).
  (* a change leaves a trace *)
  assert (TR : forall l w w' K, wrun w l = Some w' -> w_list w = Some K -> In f K -> (forall fs, ~ In (Done fs) l) -> ~ In Begin l ->
     In (Change f) l -> In f (w_modified w')).
  { clear -LK. induction l as [|e l IH]; intros w w' K R WL IK ND NB IC; [destruct IC|]. cbn [wrun] in R.
    destruct (wstep w e) as [w1|] eqn:S; [|discriminate R]. cbn [bind] in R. destruct IC as [->|IC].
    - assert (I1 : In f (w_modified w1)).
      { unfold wstep in S. apply some_inj in S. subst w1. cbn [w_modified]. unfold on_modified. rewrite WL.
        replace (existsb (Nat.eqb f) K) with true; [left; reflexivity|]. symmetry. apply existsb_exists. exists f. split; [exact IK|apply Nat.eqb_refl]. }
      exact (modified_kept _ _ _ R (fun H => NB (or_intror H)) f I1).
    - apply (IH w1 w' K R); try assumption; [|intros fs H; exact (ND fs (or_intror H))|intros H; exact (NB (or_intror H))].
      rewrite <- WL. apply (LK [e] w w1); [cbn [wrun]; rewrite S; reflexivity|]. intros fs [H|[]]. apply (ND fs). left. exact H. }
  assert (CD : forall l, In (Change f) l \/ ~ In (Change f) l).
  { clear. induction l as [|e l IH]; [right; intros []|]. destruct IH as [IH|IH]; [left; right; exact IH|].
    destruct e as [g| | |g|fs|]; try (right; intros [H|H]; [discriminate H|contradiction]).
    destruct (Nat.eq_dec g f) as [->|NE]; [left; left; reflexivity|right; intros [H|H]; [congruence|contradiction]]. }
  assert (NC2 : ~ In (Change f) l2).
  { intros I. pose proof (TR l2 w2 w3 L R2 L2 IL ND NB2 I) as M.
    assert (M4 : In f (w_modified w4)).
    { unfold wstep in S4. destruct (w_phase w3); try discriminate S4. apply some_inj in S4. subst w4. exact M. }
    pose proof (modified_kept _ _ _ R NB3 f M4) as M5. rewrite WM in M5. destruct M5. }
  destruct (reads_ok l2 f (w_disk w2 f) w2 w3 (fun _ => None) R2 NC2 NB2 ND NF P2 eq_refl (or_introl eq_refl)) as (r & P3 & RV).
  unfold wstep in S4. rewrite P3 in S4. apply some_inj in S4. subst w4.
  (* l3: no build runs, so no Done either *)
  assert (ND3 : forall l w w', wrun w l = Some w' -> ~ In Begin l -> (forall r, w_phase w <> Building r) -> forall fs, ~ In (Done fs) l).
  { clear. induction l as [|e l IH]; intros w w' R NB NP fs I; [destruct I|]. cbn [wrun] in R.
    destruct (wstep w e) as [w1|] eqn:S; [|discriminate R]. cbn [bind] in R. destruct I as [->|I].
    - unfold wstep in S. destruct (w_phase w) as [| |r] eqn:PH; try discriminate S. exact (NP r eq_refl).
    - refine (IH w1 w' R (fun H => NB (or_intror H)) _ fs I). intros r.
      destruct e as [g| | |g|fs0|]; unfold wstep in S; destruct (w_phase w) as [| |r0] eqn:PH; try discriminate S;
        try (exfalso; exact (NP r0 eq_refl)); try (exfalso; apply NB; left; reflexivity); apply some_inj in S; subst w1; cbn [w_phase]; try discriminate.
      destruct (match w_modified w with [] => _ | _ => _ end); discriminate. }
  assert (NP : forall r0, w_phase (mk_watch (w_disk w3) (Some files) (w_modified w3) Idle r (w_start w3)) <> Building r0) by (intros r0; discriminate).
  assert (NC3 : ~ In (Change f) l3).
  { intros I. pose proof (TR l3 _ w files R eq_refl IF (ND3 _ _ _ R NB3 NP) NB3 I) as M. rewrite WM in M. destruct M. }
  rewrite (seen_kept _ _ _ R NB3 NP). cbn [w_seen].
  rewrite (disk_kept _ _ _ _ R NC3). cbn [w_disk]. rewrite (disk_kept _ _ _ _ R2 NC2). exact RV.
Qed.
Lemma sampled {B} (f : watch -> B) o b : option_map f o = Some b -> exists w, o = Some w /\ f w = b.
Proof. destruct o as [w|]; [|discriminate]. intros E. exists w. split; [reflexivity|cbn in E; congruence]. Qed.
Example C67_meets : exists w1 w,
  wrun (wstart (fun _ => 0%nat)) [Check; Begin; Read 1; Done [1%nat]; Change 1; Check] = Some w1 /\ w_list w1 = Some [1%nat] /\
  wrun (wstart (fun _ => 0%nat)) ([Check; Begin; Read 1; Done [1%nat]; Change 1; Check] ++ Begin :: [Read 1%nat; Change 2] ++ Done [1%nat; 2%nat] :: []) = Some w /\
  w_modified w = [] /\ w_seen w 1%nat = Some 1%nat.
Proof.
  destruct (sampled w_list (wrun (wstart (fun _ => 0%nat)) [Check; Begin; Read 1; Done [1%nat]; Change 1; Check]) (Some [1%nat]) eq_refl) as (w1 & E1 & L1).
  destruct (sampled (fun w => (w_modified w, w_seen w 1%nat))
    (wrun (wstart (fun _ => 0%nat)) ([Check; Begin; Read 1; Done [1%nat]; Change 1; Check] ++ Begin :: [Read 1%nat; Change 2] ++ Done [1%nat; 2%nat] :: []))
    ([], Some 1%nat) eq_refl) as (w & E & V).
  apply pair_inj in V as [V1 V2]. exists w1, w. split; [exact E1|]. split; [exact L1|]. split; [exact E|]. split; [exact V1|exact V2].
Qed.

(** "Every change while watching is built": a change during the first build
    is not noticed, because nothing is watched yet; the loop then rests with
    the old contents in the grf, for ever. *)
Theorem C67_first_build_refuted : exists w,
  wrun (wstart (fun _ => 0%nat)) [Check; Begin; Read 0; Change 0; Done [0%nat]] = Some w /\
  w_phase w = Idle /\ w_modified w = [] /\ w_seen w 0%nat = Some 0%nat /\ w_disk w 0%nat = 1%nat /\
  (exists w', wstep w Check = Some w' /\ w_phase w' = Idle /\ w_modified w' = []).
Proof.
  destruct (sampled (fun w => ((w_phase w, w_modified w), (w_list w, (w_seen w 0%nat, w_disk w 0%nat))))
    (wrun (wstart (fun _ => 0%nat)) [Check; Begin; Read 0; Change 0; Done [0%nat]]) ((Idle, []), (Some [0%nat], (Some 0%nat, 1%nat))) eq_refl) as (w & E & V).
  apply pair_inj in V as [V1 V2]. apply pair_inj in V1 as [VP VM]. apply pair_inj in V2 as [VL V3]. apply pair_inj in V3 as [VS VD].
  exists w. split; [exact E|]. split; [exact VP|]. split; [exact VM|]. split; [exact VS|]. split; [exact VD|].
  cbn [wstep]. rewrite VP. eexists. split; [reflexivity|]. cbn [w_phase w_modified]. rewrite VM, VL. split; reflexivity.
Qed.
(** The same for a file that a later build uses for the first time. *)
Theorem C67_new_file_refuted : exists w,
  wrun (wstart (fun _ => 0%nat)) [Check; Begin; Read 0; Done [0%nat]; Change 0; Check; Begin; Read 0; Read 1; Change 1; Done [0%nat; 1%nat]] = Some w /\
  w_phase w = Idle /\ w_modified w = [] /\ w_seen w 1%nat = Some 0%nat /\ w_disk w 1%nat = 1%nat.
Proof.
  destruct (sampled (fun w => ((w_phase w, w_modified w), (w_seen w 1%nat, w_disk w 1%nat)))
    (wrun (wstart (fun _ => 0%nat)) [Check; Begin; Read 0; Done [0%nat]; Change 0; Check; Begin; Read 0; Read 1; Change 1; Done [0%nat; 1%nat]])
    ((Idle, []), (Some 0%nat, 1%nat)) eq_refl) as (w & E & V).
  apply pair_inj in V as [V1 V2]. apply pair_inj in V1 as [VP VM]. apply pair_inj in V2 as [VS VD].
  exists w. split; [exact E|]. split; [exact VP|]. split; [exact VM|]. split; [exact VS|exact VD].
Qed.

Print Assumptions C66_unambiguous.
Print Assumptions C66_wire.
Print Assumptions C66_words.
Print Assumptions C66_end.
Print Assumptions C66_too_long.
Print Assumptions C66_all_arrives_refuted.
Print Assumptions C66_nul_refuted.
Print Assumptions C66_address.
Print Assumptions C66_password_refuted.
Print Assumptions C67_no_change_lost.
Print Assumptions C67_reacts.
Print Assumptions C67_failure.
Print Assumptions C67_up_to_date.
Print Assumptions C67_first_build_refuted.
Print Assumptions C67_new_file_refuted.
