(** Specification vocabulary for C35 and C55. *)
From Coq Require Import ZArith List Bool String.
From Verif Require Import Base RecordsModel StringsModel.
Import ListNotations.
Open Scope Z_scope.

(** The names given by the program are not of the automatic form. *)
Definition own_names (ops : list sop) : Prop := forall t n k, In (ONamed t n) ops -> n <> auto_name k.
(** The references handed to the program's registrations. *)
Definition globals_of (ops : list sop) : list sref := flat_map (fun o => match o with OGlobal r => [r] | _ => [] end) ops.
Definition persistents_of (ops : list sop) : list sref := flat_map (fun o => match o with OPersistent r => [r] | _ => [] end) ops.
(** No two different references have the same hash. *)
Definition no_collision (l : list sref) : Prop := forall a b, In a l -> In b l -> r_hash a = r_hash b -> string_expr a = string_expr b.
(** How many string ids are in use. *)
Definition hashes (l : list sref) : Z := len (nodup Z.eq_dec (map r_hash l)).
(** What the emitted actions say about text id [id]. *)
Definition definitions (l : list action4) (id : Z) : list (Z * list bytes) :=
  map (fun a => (a4_lang a, a4_strings a)) (filter (fun a => a4_generic a && (a4_offset a =? id)) l).

(** Pieces of a string: an ordinary character, backslash + one of the two
    special characters, backslash + U + four hex digits, backslash + two hex
    digits; how each is written and the bytes it stands for. *)
Inductive piece := PChar (c : Z) | PQuote (c : Z) | PUni (a b c d : Z) | PHex (a b : Z).
Definition piece_src (p : piece) : list Z :=
  match p with PChar c => [c] | PQuote c => [92; c] | PUni a b c d => [92; 85; a; b; c; d] | PHex a b => [92; a; b] end.
(** The value of a hex digit. *)
Inductive hexval : Z -> Z -> Prop :=
| hv_dec : forall d, 0 <= d <= 9 -> hexval (48 + d) d
| hv_up : forall d, 10 <= d <= 15 -> hexval (55 + d) d
| hv_low : forall d, 10 <= d <= 15 -> hexval (87 + d) d.
(** A well-formed UTF-8 sequence of code point [c]. *)
Inductive utf8_of : Z -> bytes -> Prop :=
| u8_1 : forall c, 0 <= c < 128 -> utf8_of c [c]
| u8_2 : forall h l, 2 <= h < 32 -> 0 <= l < 64 -> utf8_of (64 * h + l) [192 + h; 128 + l]
| u8_3 : forall h m l, 0 <= h < 16 -> 0 <= m < 64 -> 0 <= l < 64 -> 2048 <= 4096 * h + 64 * m + l ->
    ~ (55296 <= 4096 * h + 64 * m + l <= 57343) -> utf8_of (4096 * h + 64 * m + l) [224 + h; 128 + m; 128 + l]
| u8_4 : forall g h m l, 0 <= g < 8 -> 0 <= h < 64 -> 0 <= m < 64 -> 0 <= l < 64 -> 65536 <= 262144 * g + 4096 * h + 64 * m + l <= 1114111 ->
    utf8_of (262144 * g + 4096 * h + 64 * m + l) [240 + g; 128 + h; 128 + m; 128 + l].
Inductive piece_bytes : piece -> bytes -> Prop :=
| pb_char : forall c b, c <> 92 -> utf8_of c b -> piece_bytes (PChar c) b
| pb_quote : forall c, c = 92 \/ c = 34 -> piece_bytes (PQuote c) [c]
| pb_uni : forall a b c d va vb vc vd u, hexval a va -> hexval b vb -> hexval c vc -> hexval d vd ->
    utf8_of (4096 * va + 256 * vb + 16 * vc + vd) u -> piece_bytes (PUni a b c d) u
| pb_hex : forall a b va vb, hexval a va -> hexval b vb -> piece_bytes (PHex a b) [16 * va + vb].
Inductive pieces_bytes : list piece -> bytes -> Prop :=
| pbs_nil : pieces_bytes [] []
| pbs_cons : forall p l b c, piece_bytes p b -> pieces_bytes l c -> pieces_bytes (p :: l) (b ++ c).
