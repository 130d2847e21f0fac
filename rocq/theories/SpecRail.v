(** Specification vocabulary for C39: what the game does with the records.
    A record is a list of bytes. *)
From Coq Require Import ZArith List Bool.
From Verif Require Import Base.
Import ListNotations.
Open Scope Z_scope.

(** The parameters (four bytes each), the changes waiting for the next record,
    and the railtype table. *)
Record game := mkGame { g_param : Z -> bytes; g_patches : list (Z * nat * nat); g_table : list bytes }.
Definition byte_at (i : nat) (r : bytes) : Z := nth i r 0.
(** A change puts the first bytes of a parameter at an offset. *)
Definition patch_with (param : Z -> bytes) (r : bytes) (p : Z * nat * nat) : bytes :=
  let '(num, size, ofs) := p in firstn ofs r ++ firstn size (param num) ++ skipn (ofs + size) r.
(** Action 6: number of the parameter, size, offset (a byte, or 255 and a
    word); 255 at the end. *)
Fixpoint read_patches (l : bytes) : list (Z * nat * nat) :=
  match l with
  | num :: size :: ofs :: l =>
      if num =? 255 then []
      else if ofs =? 255 then
        match l with lo :: hi :: l => (num, Z.to_nat size, Z.to_nat (lo + 256 * hi)) :: read_patches l | _ => [] end
      else (num, Z.to_nat size, Z.to_nat ofs) :: read_patches l
  | _ => []
  end.
Fixpoint labels (n : nat) (l : bytes) : list bytes :=
  match n with O => [] | S n => firstn 4 l :: labels n (skipn 4 l) end.
(** Action 0 of the railtype table from id 0; Action 6; Action D, assignment of
    a constant.  Other records do not matter here. *)
Definition patched (g : game) (r : bytes) : bytes := fold_left (patch_with (g_param g)) (g_patches g) r.
Definition exec (g : game) (r : bytes) : game :=
  if (byte_at 0 r =? 0) && (byte_at 1 r =? 8) && (byte_at 2 r =? 1) && (byte_at 4 r =? 255) && (byte_at 5 r =? 0) && (byte_at 6 r =? 0) && (byte_at 7 r =? 18)
  then mkGame (g_param g) [] (labels (Z.to_nat (byte_at 3 r)) (skipn 8 r))
  else if byte_at 0 r =? 6 then mkGame (g_param g) (read_patches (skipn 1 r)) (g_table g)
  else if (byte_at 0 r =? 13) && (byte_at 2 r =? 0) && (byte_at 3 r =? 255) && (byte_at 4 r =? 255)
  then mkGame (fun k => if k =? byte_at 1 r then firstn 4 (skipn 5 r) else g_param g k) [] (g_table g)
  else mkGame (g_param g) [] (g_table g).
(** Action 9, condition 14 with a label of four bytes: skips when this railtype
    is available, to the next Action 10 of this number if there is one, else by
    this number of records (0 is the end of the file). *)
Definition skips (avail : bytes -> bool) (r : bytes) : option Z :=
  if (byte_at 0 r =? 9) && (byte_at 2 r =? 4) && (byte_at 3 r =? 14) && avail (firstn 4 (skipn 4 r)) then Some (byte_at 8 r) else None.
Definition is_label (n : Z) (r : bytes) : bool := (byte_at 0 r =? 16) && (byte_at 1 r =? n).
Fixpoint after_label (n : Z) (l : list bytes) : option (list bytes) :=
  match l with [] => None | r :: l => if is_label n r then Some l else after_label n l end.
Definition jump (n : Z) (l : list bytes) : list bytes :=
  match after_label n l with Some l => l | None => if n =? 0 then [] else skipn (Z.to_nat n) l end.
(** Playing a file; each step uses up a record at least, [fuel] is the number of
    records. *)
Fixpoint play_n (avail : bytes -> bool) (fuel : nat) (g : game) (l : list bytes) : game :=
  match fuel, l with
  | S fuel, r :: l =>
      let r := patched g r in
      match skips avail r with
      | Some n => play_n avail fuel (mkGame (g_param g) [] (g_table g)) (jump n l)
      | None => play_n avail fuel (exec g r) l
      end
  | _, _ => g
  end.
Definition play (avail : bytes -> bool) (g : game) (l : list bytes) : game := play_n avail (length l) g l.

(** The first available label of a list, the last if there is none. *)
Definition choice (avail : bytes -> bool) (l : list bytes) : bytes :=
  match find avail l with Some x => x | None => last l [] end.
