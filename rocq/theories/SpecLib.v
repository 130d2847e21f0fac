(** Specification vocabulary for C36, C37, C38 and C40. *)
From Coq Require Import ZArith List Bool String Permutation.
From Verif Require Import Base RecordsModel PropModel Action0Model LibModel.
Import ListNotations.
Open Scope string_scope.
Open Scope list_scope.
Open Scope Z_scope.
Notation length := List.length.

(** ** C36 *)
(** The values of a run belong to consecutive ids. *)
Fixpoint numbered {V} (first : Z) (vs : list V) : list (Z * V) :=
  match vs with [] => [] | v :: vs => (first, v) :: numbered (first + 1) vs end.
Definition covered {V} (runs : list (Z * list V)) : list (Z * V) := flat_map (fun r => numbered (fst r) (snd r)) runs.
(** Ids in ascending order. *)
Inductive ascending {V} : list (Z * V) -> Prop :=
| as_nil : ascending []
| as_one : forall e, ascending [e]
| as_cons : forall e f l, fst e <= fst f -> ascending (f :: l) -> ascending (e :: f :: l).
(** Two runs are kept apart only when the ids do not follow each other or the
    first is full. *)
Inductive well_split {V} (chunk : Z) : list (Z * list V) -> Prop :=
| ws_nil : well_split chunk []
| ws_one : forall r, well_split chunk [r]
| ws_cons : forall f vs f' vs' l, f' <> f + len vs \/ len vs = chunk -> well_split chunk ((f', vs') :: l) ->
    well_split chunk ((f, vs) :: (f', vs') :: l).
(** What a DefineMultiple sets: property [name] of [id] to a value. *)
Definition sets (d : define) (id : Z) (name : string) (v : pv) : Prop :=
  exists vs, In (name, vs) (df_props d) /\ In (id, v) (numbered (df_first d) vs).

(** What makes an object of the original game unavailable, and how many of them
    there are. *)
Inductive disables : Z -> Z -> string -> pv -> Prop :=
| di_train : disables 0 116 "climates_available" (VInt 0)
| di_rv : disables 1 88 "climates_available" (VInt 0)
| di_ship : disables 2 11 "climates_available" (VInt 0)
| di_aircraft : disables 3 41 "climates_available" (VInt 0)
| di_house : disables 7 110 "substitute" (VInt 255)
| di_industry : disables 10 37 "substitute_type" (VInt 255)
| di_cargo : disables 11 27 "bit_number" (VInt 255)
| di_cargo_label : disables 11 27 "label" (VInt 0).
(** The ids the user gave; all when there is no argument. *)
Inductive wants (count : Z) : ids_arg -> Z -> Prop :=
| wa_all : forall id, 0 <= id < count -> wants count IdsNone id
| wa_one : forall id, wants count (IdsInt id) id
| wa_list : forall l id, In id l -> wants count (IdsList l) id.

(** ** C37 *)
(** The game puts vehicle [v] just before [t] in the purchase list; nothing
    happens when they are the same or one is not in the list. *)
Fixpoint put_before (v t : Z) (l : list Z) : list Z :=
  match l with [] => [] | x :: l => if x =? t then v :: x :: l else x :: put_before v t l end.
Definition mem_z (x : Z) (l : list Z) : bool := existsb (Z.eqb x) l.
Definition move_before (v t : Z) (l : list Z) : list Z :=
  if (v =? t) || negb (mem_z v l) || negb (mem_z t l) then l
  else put_before v t (filter (fun x => negb (x =? v)) l).
(** The reorder properties are applied in the order of the file. *)
Definition apply_define (d : define) (l : list Z) : list Z :=
  fold_left (fun l p => match p with ("sort_purchase_list", [VInt t]) => move_before (df_first d) t l | _ => l end) (df_props d) l.
Definition apply_defines (ds : list define) (l : list Z) : list Z := fold_left (fun l d => apply_define d l) ds l.

(** The vehicles that are not in the order, in their own order. *)
Definition unlisted (order l : list Z) : list Z := filter (fun x => negb (mem_z x order)) l.

(** The vehicles of an item, in the user's order. *)
Fixpoint vehicles (e : vitem) : list nat :=
  match e with
  | VVeh v => [v]
  | VGroup _ items => (fix all l := match l with [] => [] | x :: l => vehicles x ++ all l end) items
  end.
Definition listed (l : list vitem) : list nat := flat_map vehicles l.
(** The vehicle that stands for a group is its first. *)
Definition heads (e : vitem) (v : nat) : Prop := exists r, vehicles e = v :: r.
(** [v] is shown under [g]: it is in the group headed by [g], itself or as the
    head of a group inside. *)
Inductive shown_under : vitem -> nat -> nat -> Prop :=
| su_member : forall name items e v g, In e items -> heads e v -> heads (VGroup name items) g -> v <> g -> shown_under (VGroup name items) v g
| su_deep : forall name items e v g, In e items -> shown_under e v g -> shown_under (VGroup name items) v g.
(** Vehicle [v] is in a group named [n] which is [level] groups deep; the item
    itself is at depth [k]. *)
Inductive in_named : Z -> vitem -> nat -> Z -> string -> Prop :=
| nm_here : forall k n items v, In v (vehicles (VGroup (Some n) items)) -> in_named k (VGroup (Some n) items) v k n
| nm_deep : forall k name items e v j n, In e items -> in_named (k + 1) e v j n -> in_named k (VGroup name items) v j n.

(** ** C38 *)
(** A vehicle is 8 units long unless shortened. *)
Definition part_length (shorten_by : option Z) : Z := 8 - match shorten_by with Some s => s | None => 0 end.
Definition lengths (l : list (option Z)) : list Z := map part_length l.
Definition total (l : list Z) : Z := fold_right Z.add 0 l.
Definition train_lengths (t : train) : list Z := part_length (tr_head t) :: lengths (tr_parts t).

(** ** C40 *)
Definition colour_ok (c : Z * Z * Z) : Prop := let '(r, g, b) := c in 0 <= r <= 255 /\ 0 <= g <= 255 /\ 0 <= b <= 255.
(** The component at this brightness, and how far it is above white. *)
Definition scaled (x brightness : Z) : Z := x * brightness / 128.
Definition excess (x : Z) : Z := Z.max 0 (x - 255).
