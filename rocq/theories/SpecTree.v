(** Specification vocabulary for C59: sprites as users make them. *)
From Coq Require Import ZArith List Bool.
From Verif Require Import Base CacheModel JsonModel TreeModel.
Import ListNotations.
Open Scope Z_scope.

(** Texts are lists of UTF-8 bytes. *)
Definition text (s : bytes) : Prop := Forall (fun c => 0 <= c) s.
(** repr() of a finite float such as 1700000000.25 or 1e+22: digits, signs,
    a point or an exponent. *)
Definition float_repr (t : bytes) : Prop :=
  (exists c r, t = c :: r /\ (48 <= c <= 57 \/ c = 45))
  /\ Forall (fun c => 48 <= c <= 57 \/ In c [46; 101; 43; 45]) t /\ (In 46 t \/ In 101 t).

(** Every file system gives a float as modification time. *)
Definition file_system (W : world) : Prop := forall p m c, W p = Some (m, c) -> float_repr m.

(** Made by the constructors of the library, attributes untouched. *)
Inductive built : tree -> Prop :=
| B_file path ck x y a kw t : text path -> Forall (fun e => text (fst e) /\ exists i, snd e = JInt i) kw ->
    new_file path ck x y a kw = Some t -> built t
| B_image im xofs yofs zoom crop t : new_image im xofs yofs zoom crop = Some t -> built t
| B_empty : built TEmpty
| B_mask s m mode t : built s -> built m -> new_mask s m mode = Some t -> built t
| B_move s dx dy : built s -> built (new_move s dx dy)
| B_quant s : built s -> built (new_quant s).

(** Between [W1] and [W2] nobody rewrote a file leaving its modification time
    as it was. *)
Definition honest_times (W1 W2 : world) : Prop :=
  forall p m c1 c2, W1 p = Some (m, c1) -> W2 p = Some (m, c2) -> c1 = c2.

(** A build: the state of the files, whether it is a clean build, and the
    sprites it writes, in order. *)
Record build := mk_build { b_files : world; b_clean : bool; b_sprites : list tree }.

(** Builds one after the other with one cache directory: what each of them
    wrote (None: it raised). *)
Fixpoint builds (lib : pil) (compress : bytes -> bytes) (md5 : bytes -> key) (this : bytes) (d : disk) (bl : list build)
  : list (option (list bytes)) :=
  match bl with
  | [] => []
  | b :: bl =>
      let '(d, r) := build_data lib compress md5 this d (b_files b) (b_clean b) (b_sprites b) in
      r :: builds lib compress md5 this d bl
  end.

(** Does an ImageSprite occur in the sprite? *)
Fixpoint has_image (t : tree) : Prop :=
  match t with
  | TImage _ _ => True
  | TFile _ _ _ _ _ _ | TEmpty => False
  | TMask _ s m _ => has_image s \/ has_image m
  | TMove _ s | TQuant _ s => has_image s
  end.
