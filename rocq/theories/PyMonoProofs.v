(** Reading with more depth gives the same: a text is one expression. *)
From Coq Require Import ZArith List Bool Lia String.
From Verif Require Import Base BaseFacts PyValue SpecPython.
Import ListNotations.
Open Scope Z_scope.

(** [o'] is [o] where [o] is something. *)
Definition leo {A} (o o' : option A) : Prop := forall x, o = Some x -> o' = Some x.
Lemma leo_refl {A} (o : option A) : leo o o. Proof. intros x H. exact H. Qed.
Lemma leo_bind {A B} (a a' : option A) (f g : A -> option B) : leo a a' -> (forall x, leo (f x) (g x)) -> leo (bind a f) (bind a' g).
Proof. intros H F x E. destruct a as [y|]; [|discriminate]. rewrite (H y eq_refl). cbn [bind] in E |- *. apply F. exact E. Qed.
Lemma leo_bind2 {A B C} (a a' : option (A * B)) (f g : A -> B -> option C) : leo a a' -> (forall x y, leo (f x y) (g x y)) ->
  leo (bind a (fun p => let (x, y) := p in f x y)) (bind a' (fun p => let (x, y) := p in g x y)).
Proof. intros H F. apply leo_bind; [exact H|]. intros [x y]. apply F. Qed.

Lemma more_text_mono deep : forall n b s, leo (more_text n deep b s) (more_text (S n) deep b s).
Proof.
  induction n as [|n IH]; intros b s; [intros x H; discriminate|]. cbn [more_text]. destruct (text_literal (ws deep s)) as [[x r]|]; [apply IH|apply leo_refl].
Qed.
Lemma more_bytes_mono deep : forall n b s, leo (more_bytes n deep b s) (more_bytes (S n) deep b s).
Proof.
  induction n as [|n IH]; intros b s; [intros x H; discriminate|]. cbn [more_bytes]. destruct (bytes_literal (ws deep s)) as [[x r]|]; [apply IH|apply leo_refl].
Qed.
Definition mono (n : nat) : Prop :=
  (forall deep s, leo (expr n deep s) (expr (S n) deep s)) /\
  (forall deep a s, leo (alternatives n deep a s) (alternatives (S n) deep a s)) /\
  (forall deep s, leo (unary n deep s) (unary (S n) deep s)) /\
  (forall deep s, leo (atom n deep s) (atom (S n) deep s)) /\
  (forall deep a s, leo (trailer n deep a s) (trailer (S n) deep a s)) /\
  (forall close s, leo (items n close s) (items (S n) close s)) /\
  (forall s, leo (entries n s) (entries (S n) s)) /\
  (forall named s, leo (arguments n named s) (arguments (S n) named s)).

Ltac zc c G := destruct c as [|?p|?p]; try exact G; repeat (match goal with p : positive |- _ => destruct p as [p|p|]; try exact G end).
Lemma leo_none {A} (o : option A) : leo None o. Proof. intros x H. discriminate. Qed.

Section step.
Variable n m : nat.
Hypothesis M : m = S n.
Hypothesis He : forall deep s, leo (expr n deep s) (expr m deep s).
Hypothesis Ha : forall deep a s, leo (alternatives n deep a s) (alternatives m deep a s).
Hypothesis Hu : forall deep s, leo (unary n deep s) (unary m deep s).
Hypothesis Ht : forall deep s, leo (atom n deep s) (atom m deep s).
Hypothesis Hr : forall deep a s, leo (trailer n deep a s) (trailer m deep a s).
Hypothesis Hi : forall close s, leo (items n close s) (items m close s).
Hypothesis Hd : forall s, leo (entries n s) (entries m s).
Hypothesis Hg : forall named s, leo (arguments n named s) (arguments m named s).
Ltac b2 := apply leo_bind2; [try (apply He || apply Ha || apply Hu || apply Ht || apply Hr || apply Hi || apply Hd || apply Hg || apply leo_refl)|intros ? ?; try apply leo_refl].

Lemma m_expr deep s : leo (expr (S n) deep s) (expr (S m) deep s).
Proof. cbn [expr]. b2. apply Ha. Qed.
Lemma m_alternatives deep a s : leo (alternatives (S n) deep a s) (alternatives (S m) deep a s).
Proof.
  cbn [alternatives]. destruct (ws deep s) as [|c r]; [apply leo_refl|].
  pose proof (leo_refl (Some (a, s))) as G. zc c G. b2. apply Ha.
Qed.
Lemma m_unary deep s : leo (unary (S n) deep s) (unary (S m) deep s).
Proof.
  cbn [unary]. destruct (ws deep s) as [|c r]; [apply Ht|].
  pose proof (Ht deep (c :: r)) as G. zc c G. apply leo_refl.
Qed.
Lemma m_atom deep s : leo (atom (S n) deep s) (atom (S m) deep s).
Proof.
  cbn [atom]. destruct s as [|c r]; [apply leo_refl|].
  destruct (c =? 40).
  - assert (G : forall w, leo (do (e, r) <- expr n true w;
               match ws true r with
               | 41 :: r => Some (e, r)
               | 44 :: r => do (l, r) <- items n 41 r; Some (YTuple (e :: l), r)
               | _ => None
               end) (do (e, r) <- expr m true w;
               match ws true r with
               | 41 :: r => Some (e, r)
               | 44 :: r => do (l, r) <- items m 41 r; Some (YTuple (e :: l), r)
               | _ => None
               end)).
    { intros w. b2. destruct (ws true y) as [|d t]; [apply leo_refl|].
      pose proof (leo_none (None (A := py * bytes))) as G. destruct d as [|p|p]; try exact G; repeat (destruct p as [p|p|]; try exact G); [apply leo_refl|]. b2. }
    destruct (ws true r) as [|d t]; [apply G|]. pose proof (G (d :: t)) as G'. zc d G'. apply leo_refl.
  - destruct (c =? 91); [b2|]. destruct (c =? 123); [b2|]. destruct (digitb c); [apply leo_refl|]. destruct (quoteb c).
    + destruct (triple_literal (c :: r)) as [[x u]|]; [apply leo_refl|]. b2. b2. rewrite M. apply more_text_mono.
    + destruct (bytes_literal (c :: r)) as [[x u]|]; [b2; rewrite M; apply more_bytes_mono|].
      destruct (ident (c :: r)) as [x u]. repeat (match goal with |- context [same ?a ?b] => destruct (same a b); [apply leo_refl|] end).
      b2. apply Hr.
Qed.
Lemma m_trailer deep a s : leo (trailer (S n) deep a s) (trailer (S m) deep a s).
Proof.
  cbn [trailer]. destruct (ws deep s) as [|c r]; [apply leo_refl|].
  pose proof (leo_refl (Some (a, s))) as G. destruct c as [|p|p]; try exact G; repeat (destruct p as [p|p|]; try exact G); [apply leo_refl|b2; apply Hr|b2; apply Hr].
Qed.
Lemma m_items close s : leo (items (S n) close s) (items (S m) close s).
Proof.
  cbn [items]. destruct (ws true s) as [|c r]; [apply leo_refl|]. destruct (c =? close); [apply leo_refl|]. b2.
  destruct (ws true y) as [|d t]; [apply leo_refl|]. destruct (d =? close); [apply leo_refl|]. destruct (d =? 44); [|apply leo_refl]. b2.
Qed.
Lemma m_entries s : leo (entries (S n) s) (entries (S m) s).
Proof.
  cbn [entries].
  assert (G : forall w, leo (do (k, r) <- expr n true w;
               match ws true r with
               | 58 :: r => do (v, r) <- expr n true r;
                            match ws true r with
                            | 125 :: r => Some ([(k, v)], r)
                            | 44 :: r => do (l, r) <- entries n r; Some ((k, v) :: l, r)
                            | _ => None
                            end
               | _ => None
               end) (do (k, r) <- expr m true w;
               match ws true r with
               | 58 :: r => do (v, r) <- expr m true r;
                            match ws true r with
                            | 125 :: r => Some ([(k, v)], r)
                            | 44 :: r => do (l, r) <- entries m r; Some ((k, v) :: l, r)
                            | _ => None
                            end
               | _ => None
               end)).
  { intros w. b2. destruct (ws true y) as [|d t]; [apply leo_refl|].
    pose proof (leo_none (None (A := list (py * py) * bytes))) as G. zc d G. b2. destruct (ws true y0) as [|d t']; [apply leo_refl|].
    destruct d as [|p|p]; try exact G; repeat (destruct p as [p|p|]; try exact G); [apply leo_refl|]. b2. }
  destruct (ws true s) as [|d t]; [apply G|]. pose proof (G (d :: t)) as G'. zc d G'. apply leo_refl.
Qed.
Lemma m_arguments named s : leo (arguments (S n) named s) (arguments (S m) named s).
Proof.
  cbn [arguments].
  set (pick := fun w : bytes => match name w with
                   | Some (x, r') => match ws true r' with
                                     | 61 :: r'' => if match r'' with 61 :: _ => true | _ => false end then None else Some (x, r'')
                                     | _ => Some ([], w)
                                     end
                   | None => Some ([], w)
                   end).
  assert (G : forall w, leo (do (x, r) <- pick w;
                   do! (match x with [] => negb named | _ => true end);
                   do (v, r) <- expr n true r;
                   match ws true r with
                   | 41 :: r => Some ([(x, v)], r)
                   | 44 :: r => do (l, r) <- arguments n (match x with [] => named | _ => true end) r; Some ((x, v) :: l, r)
                   | _ => None
                   end) (do (x, r) <- pick w;
                   do! (match x with [] => negb named | _ => true end);
                   do (v, r) <- expr m true r;
                   match ws true r with
                   | 41 :: r => Some ([(x, v)], r)
                   | 44 :: r => do (l, r) <- arguments m (match x with [] => named | _ => true end) r; Some ((x, v) :: l, r)
                   | _ => None
                   end)).
  { intros w. apply leo_bind2; [apply leo_refl|]. intros x t. destruct (match x with [] => negb named | _ => true end); [|apply leo_refl]. b2.
    destruct (ws true y) as [|d u]; [apply leo_refl|].
    pose proof (leo_none (None (A := list (bytes * py) * bytes))) as G. destruct d as [|p|p]; try exact G; repeat (destruct p as [p|p|]; try exact G); [apply leo_refl|]. b2. }
  destruct (ws true s) as [|d t]; [apply (G [])|]. pose proof (G (d :: t)) as G'. zc d G'. apply leo_refl.
Qed.
End step.

Lemma mono_all n : mono n.
Proof.
  induction n as [|n (He & Ha & Hu & Ht & Hr & Hi & Hd & Hg)]; [repeat split; intros; apply leo_none|].
  repeat split; intros.
  - apply m_expr; assumption.
  - apply m_alternatives; assumption.
  - apply m_unary; assumption.
  - apply m_atom; try assumption. reflexivity.
  - apply m_trailer; assumption.
  - apply m_items; assumption.
  - apply m_entries; assumption.
  - apply m_arguments; assumption.
Qed.
Lemma expr_mono deep s : forall n m, (n <= m)%nat -> leo (expr n deep s) (expr m deep s).
Proof.
  intros n m L. induction L as [|m L IH]; [apply leo_refl|]. intros x E. apply (proj1 (mono_all m)). apply IH. exact E.
Qed.
Lemma read_mono s n m v : (n <= m)%nat -> read n s = Some v -> read m s = Some v.
Proof.
  intros L. unfold read. destruct (expr n false s) as [[e r]|] eqn:E; [|discriminate]. rewrite (expr_mono false s n m L _ E). intros H. exact H.
Qed.
Theorem Reads_fun s v w : Reads s v -> Reads s w -> v = w.
Proof.
  intros [n Hn] [m Hm]. apply (read_mono s n (Nat.max n m)) in Hn; [|lia]. apply (read_mono s m (Nat.max n m)) in Hm; [|lia]. congruence.
Qed.
