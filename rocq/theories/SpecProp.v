(** Specification vocabulary for C05 and C06: how the NewGRF format writes
    property values.  [codes f v w b]: given the value [v] for a property of
    format [f], the file has the bytes [b], which stand for the value [w]; [w]
    is [v] itself or its normal form. *)
From Coq Require Import ZArith List Bool String.
From Verif Require Import Base CommonModel SpecCommon RecordsModel Action2Model PropModel Action0Model SpecContainer.
Import ListNotations.
Open Scope string_scope.
Open Scope list_scope.
Open Scope Z_scope.
Notation length := List.length.
Notation concat := List.concat.

Definition isbyte (x : Z) : Prop := 0 <= x < 256.
Definition word (v : Z) : bytes := [v mod 256; v / 256 mod 256].

(** A label: four bytes, or a number for them. *)
Inductive label_bytes : label -> bytes -> Prop :=
| lb_int : forall n, 0 <= n < 4294967296 -> label_bytes (LInt n) (dword n)
| lb_bytes : forall b, length b = 4%nat -> label_bytes (LBytes b) b.

(** Multi-dictionaries: for each key its strings, each as key, string, 0; at
    the end a 0. *)
Definition strings_of (m : mval) : list bytes := match m with MOne v => [v] | MMany l => l end.
(** What is read back: a key without strings is gone, one with a single string
    has just this string. *)
Definition multi_normal (l : list (Z * mval)) : list (Z * mval) :=
  flat_map (fun e => match strings_of (snd e) with [] => [] | [v] => [(fst e, MOne v)] | vs => [(fst e, MMany vs)] end) l.
Definition multi_bytes (l : list (Z * mval)) : bytes :=
  flat_map (fun e => flat_map (fun v => fst e :: v ++ [0]) (strings_of (snd e))) l ++ [0].
Definition multi_ok (l : list (Z * mval)) : Prop :=
  NoDup (map fst l) /\ forall k m v, In (k, m) l -> In v (strings_of m) -> 1 <= k < 256 /\ ~ In 0 v.

(** Sprite references, as in C04. *)
Definition ref_ok (r : sprite_ref) : Prop := 0 <= sr_id r <= 16383 /\ 0 <= sr_pal r <= 16383.
Definition ref_bytes (r : sprite_ref) : bytes :=
  word (sr_id r + 16384 * Z.b2z (sr_always_transparent r) + 32768 * Z.b2z (sr_use_recolour r)) ++
  word (sr_pal r + 16384 * Z.b2z (sr_no_transparent r) + 32768 * Z.b2z (negb (sr_is_global r))).

(** Industry layouts. *)
Inductive tile_bytes : itile -> bytes -> Prop :=
| tb_new : forall x y id, isbyte x -> isbyte y -> ~ (x = 0 /\ y = 128) -> 0 <= id <= 65535 ->
    tile_bytes (INew x y id) ([x; y; 254] ++ word id)
| tb_old : forall x y id, isbyte x -> isbyte y -> ~ (x = 0 /\ y = 128) -> 0 <= id <= 253 -> tile_bytes (IOld x y id) [x; y; id]
| tb_check : forall x y, -128 <= x <= 127 -> -128 <= y <= 127 -> ~ (x = 0 /\ y = -128) ->
    tile_bytes (ICheck x y) [x mod 256; y mod 256; 255].
Definition layout_bytes (l : list itile) (b : bytes) : Prop :=
  exists bs, Forall2 tile_bytes l bs /\ b = concat bs ++ [0; 128] /\ hd 0 b <> 254.

(** Registers of station layout sprites: bit [i] of the flags and the bytes. *)
Inductive reg_spec : skey -> sval -> Z -> bytes -> Prop :=
| rg_dodraw : forall n, isbyte n -> reg_spec KDodraw (SInt n) 0 [n]
| rg_add : forall n, isbyte n -> reg_spec KAdd (STemp n) 1 [n]
| rg_palette : forall n, isbyte n -> reg_spec KAddPalette (SInt n) 2 [n]
| rg_custom : reg_spec KCustomPalette STrue 3 []
| rg_xy : forall x y, isbyte x -> isbyte y -> reg_spec KDeltaParentXY (SPair x y) 4 [x; y]
| rg_z : forall n, isbyte n -> reg_spec KDeltaParentZ (SInt n) 5 [n]
| rg_svar : forall n, isbyte n -> reg_spec KSpriteVar10 (SInt n) 6 [n]
| rg_pvar : forall n, isbyte n -> reg_spec KPaletteVar10 (SInt n) 7 [n].
(** The registers in the order of their bits. *)
Inductive regs_spec : list (skey * sval) -> Z -> bytes -> Prop :=
| rgs_nil : regs_spec [] 0 []
| rgs_cons : forall k v i b l f c, reg_spec k v i b -> regs_spec l f c -> (2 ^ (i + 1) | f) -> regs_spec ((k, v) :: l) (2 ^ i + f) (b ++ c).
Inductive ground_bytes : ground -> bytes -> Prop :=
| gb : forall r regs f b, ref_ok r -> regs_spec regs f b -> (forall k v, In (k, v) regs -> k <> KDeltaParentXY /\ k <> KDeltaParentZ) ->
    ground_bytes (mkGr r regs []) (ref_bytes r ++ word f ++ b).
Inductive parent_bytes : parent -> bytes -> Prop :=
| pb : forall r regs f b x y z ex ey ez, ref_ok r -> regs_spec regs f b -> Forall isbyte [x; y; z; ex; ey; ez] -> z <> 128 ->
    parent_bytes (mkPa r (x, y, z) (ex, ey, ez) regs []) (ref_bytes r ++ word f ++ [x; y; z; ex; ey; ez] ++ b).
Inductive slayout_bytes : option slayout -> bytes -> Prop :=
| sb : forall g gb ps pbs, ground_bytes g gb -> Forall2 parent_bytes ps pbs -> len ps < 64 ->
    slayout_bytes (Some (mkSL g ps)) ([64 + len ps] ++ gb ++ concat pbs).

Inductive codes : fmt -> pv -> pv -> bytes -> Prop :=
| c_B : forall n, isbyte n -> codes FB (VInt n) (VInt n) [n]
| c_b : forall n, -128 <= n <= 127 -> codes FbS (VInt n) (VInt n) [n mod 256]
| c_W : forall n, 0 <= n <= 65535 -> codes FW (VInt n) (VInt n) (word n)
| c_D : forall n, 0 <= n < 4294967296 -> codes FD (VInt n) (VInt n) (dword n)
| c_L_int : forall n, 0 <= n < 4294967296 -> codes FL (VInt n) (VBytes (dword n)) (dword n)
| c_L : forall b, length b = 4%nat -> codes FL (VBytes b) (VBytes b) b
| c_Bx : forall n, 0 <= n <= 65535 -> codes FBx (VInt n) (VInt n) ([255] ++ word n)
| c_nB : forall b, len b < 256 -> codes FnB (VBytes b) (VBytes b) ([len b] ++ b)
| c_nB_list : forall l, len l < 256 -> Forall isbyte l -> codes FnB (VList l) (VBytes l) ([len l] ++ l)
| c_2L : forall l t bs, len l = 2 -> Forall2 label_bytes l bs -> codes F2L (VLabels l t) (VLabels (map LBytes bs) true) (concat bs)
| c_nL : forall l t bs, len l < 256 -> Forall2 label_bytes l bs -> codes FnL (VLabels l t) (VLabels (map LBytes bs) false) ([len l] ++ concat bs)
| c_2L_int : forall l v, v = VTuple l \/ v = VList l \/ v = VBytes l -> len l = 2 -> Forall (fun n => 0 <= n < 4294967296) l ->
    codes F2L v (VLabels (map (fun n => LBytes (dword n)) l) true) (flat_map dword l)
| c_nL_int : forall l v, v = VTuple l \/ v = VList l \/ v = VBytes l -> len l < 256 -> Forall (fun n => 0 <= n < 4294967296) l ->
    codes FnL v (VLabels (map (fun n => LBytes (dword n)) l) false) ([len l] ++ flat_map dword l)
| c_date : forall d n, valid_date d -> 1 <= d_year d <= 9999 -> to_days d = Some n ->
    codes PDate (VDate (DVDatetime d)) (VDate (DVDatetime d)) (dword n)
| c_date_own : forall d n, valid_date d -> 1 <= d_year d <= 9999 -> to_days d = Some n ->
    codes PDate (VDate (DVDate d)) (VDate (DVDatetime d)) (dword n)
| c_date_far : forall d n, valid_date d -> d_year d = 0 \/ 9999 < d_year d -> to_days d = Some n -> n < 4294967296 ->
    codes PDate (VDate (DVDate d)) (VInt n) (dword n)
| c_date_days : forall n, 0 <= n < 366 \/ 3652424 < n < 4294967296 -> codes PDate (VInt n) (VInt n) (dword n)
| c_date_days_of : forall d n, valid_date d -> 1 <= d_year d <= 9999 -> to_days d = Some n ->
    codes PDate (VInt n) (VDate (DVDatetime d)) (dword n)
| c_id : forall v n, v = VInt n \/ v = VObj n -> 0 <= n <= 65535 -> codes (PId false) v (VInt n) (word n)
| c_id_short : forall v n, v = VInt n \/ v = VObj n -> 0 <= n < 255 -> codes (PId true) v (VInt n) [n]
| c_id_long : forall v n, v = VInt n \/ v = VObj n -> 255 <= n <= 65535 -> codes (PId true) v (VInt n) ([255] ++ word n)
| c_climate : forall n, isbyte n -> codes PClimate (VInt n) (VInt n) [n]
| c_bytes : forall v l, v = VTuple l \/ v = VList l -> len l < 256 -> Forall isbyte l -> codes PByteList v (VTuple l) ([len l] ++ l)
| c_bytes_raw : forall b, len b < 256 -> Forall isbyte b -> codes PByteList (VBytes b) (VTuple b) ([len b] ++ b)
| c_tile : forall l, len l < 256 -> Forall (fun e => isbyte (fst e) /\ isbyte (snd e)) l ->
    codes PTileAcceptance (VPairs l) (VPairs l) ([len l] ++ flat_map (fun e => [fst e; snd e]) l)
| c_multi : forall l, multi_ok l -> codes PMultiDict (VDict l) (VDict (multi_normal l)) (multi_bytes l)
| c_bridge : forall id t, isbyte id -> len t < 256 -> Forall (fun x => length x = 32%nat /\ Forall ref_ok x) t ->
    codes PBridge (VBridge id t) (VBridge id t) ([id; len t] ++ flat_map (flat_map ref_bytes) t)
| c_industry : forall l bs, len l < 256 -> Forall2 layout_bytes l bs -> len (concat bs) < 4294967296 ->
    codes PIndustryLayouts (VIndustry l) (VIndustry l) ([len l] ++ dword (len (concat bs)) ++ concat bs)
| c_station : forall l bs, len l < 65536 -> Forall2 slayout_bytes l bs ->
    codes PNewStation (VStation l) (VStation l) ([255] ++ word (len l) ++ concat bs)
| c_size : forall x y, 0 <= x <= 15 -> 0 <= y <= 15 -> codes PSizeTuple (VTuple [x; y]) (VTuple [x; y]) [16 * y + x]
| c_size_int : forall x y, 0 <= x <= 15 -> 0 <= y <= 15 -> codes PSizeTuple (VInt (16 * y + x)) (VTuple [x; y]) [16 * y + x].

(** Values for which the checks of the encoder are enough: for the other formats
    and values some condition is left to the user. *)
Inductive plain : fmt -> pv -> Prop :=
| p_num : forall f v, In f [FB; FbS; FW; FD; FL; FBx; FnB; F2L; FnL; PClimate; PTileAcceptance; PId true; PId false] -> plain f v
| p_bytes : forall v, (forall b, v = VBytes b -> Forall isbyte b) -> plain PByteList v
| p_date : forall d, valid_date d -> 1 <= d_year d <= 9999 -> plain PDate (VDate (DVDatetime d))
| p_date_own : forall d, valid_date d -> plain PDate (VDate (DVDate d))
| p_date_days : forall n, plain PDate (VInt n)
| p_size : forall x y, 0 <= x <= 15 -> 0 <= y <= 15 -> plain PSizeTuple (VTuple [x; y])
| p_size_int : forall n, plain PSizeTuple (VInt n)
| p_multi : forall l, NoDup (map fst l) -> (forall k m v, In (k, m) l -> In v (strings_of m) -> k <> 0 /\ ~ In 0 v) -> plain PMultiDict (VDict l)
| p_bridge : forall id t, Forall (Forall ref_ok) t -> plain PBridge (VBridge id t)
| p_industry : forall l, (forall x, In x l -> layout_init x = true /\ forall y r, x <> ICheck (-2) y :: r) -> plain PIndustryLayouts (VIndustry l)
| p_station : forall l, (forall o, In o l -> exists g ps gb pbs, o = Some (mkSL g ps) /\ ground_bytes g gb /\ Forall2 parent_bytes ps pbs) ->
    plain PNewStation (VStation l).

(** ** Action 0 *)
(** Property [code] of the feature, by the tables; where two properties have the
    same name it is the one with the higher number. *)
Definition has_prop (feature code : Z) (name : string) (f : fmt) : Prop :=
  exists t, In (feature, t) ACTION0_PROPS /\ In (code, (name, f)) t /\
    forall c g, In (c, (name, g)) t -> c <= code.
(** Values for consecutive ids: given, read back, bytes. *)
Inductive values_code (f : fmt) : list pv -> list pv -> bytes -> Prop :=
| vc_nil : values_code f [] [] []
| vc_cons : forall v w b vs ws c, codes f v w b -> values_code f vs ws c -> values_code f (v :: vs) (w :: ws) (b ++ c).
(** Properties with [count] values each; a longer list is cut. *)
Inductive props_code (feature count : Z) : list (string * list pv) -> list (string * list pv) -> bytes -> Prop :=
| pc_nil : props_code feature count [] [] []
| pc_cons : forall code name f vs ws b ps qs c, has_prop feature code name f -> count <= len vs ->
    values_code f (firstn (Z.to_nat count) vs) ws b ->
    props_code feature count ps qs c -> props_code feature count ((name, vs) :: ps) ((name, ws) :: qs) (code :: b ++ c).
(** The record: action, feature, number of properties, number of ids, first id
    as an extended byte, properties. *)
Inductive define_codes : define -> define -> bytes -> Prop :=
| dc : forall feature first count ps qs b, 0 <= first <= 65535 -> 0 <= count < 256 -> len ps < 256 -> NoDup (map fst ps) ->
    (exists t, In (feature, t) ACTION0_PROPS) -> props_code feature count ps qs b ->
    define_codes (mkDef feature first count ps) (mkDef feature first count qs)
      ([0; feature; len ps; count; 255] ++ word first ++ b).
