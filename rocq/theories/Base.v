(** Base vocabulary of the model: bytes, Python exceptions as [None],
    [struct.pack] fields, and the byte readers of grf/common.py.

    Simplification used everywhere: a Python [bytes] object is a [list Z]
    whose elements are in 0..255; reading at [data[offset:]] is reading from
    the remaining suffix, so readers have type [list Z -> option (A * list Z)]
    and running past the end (IndexError / struct.error) is [None]. *)
From Coq Require Import ZArith List Bool.
Import ListNotations.
Open Scope Z_scope.

Definition bytes := list Z.

Definition byteb (b : Z) : bool := (0 <=? b) && (b <? 256).
Definition bytesb (l : bytes) : bool := forallb byteb l.

(** Option monad: [None] is a raised Python exception. *)
Definition bind {A B} (x : option A) (f : A -> option B) : option B :=
  match x with Some a => f a | None => None end.
Notation "'do' p <- e ; f" := (bind e (fun p => f))
  (at level 60, p pattern, e at level 60, f at level 200, right associativity).
Notation "'do!' c ; f" := (if c then f else None)
  (at level 60, c at level 60, f at level 200, right associativity).

(** struct.pack('<B'|'<H'|'<I'), raising outside the range of the field. *)
Definition pack_B (v : Z) : option bytes :=
  do! ((0 <=? v) && (v <? 256)); Some [v].
Definition pack_H (v : Z) : option bytes :=
  do! ((0 <=? v) && (v <? 65536)); Some [v mod 256; v / 256].
Definition pack_I (v : Z) : option bytes :=
  do! ((0 <=? v) && (v <? 4294967296));
  Some [v mod 256; (v / 256) mod 256; (v / 65536) mod 256; v / 16777216].
(** struct.pack('<b'), struct.pack('<h'): two's complement. *)
Definition pack_b (v : Z) : option bytes :=
  do! ((-128 <=? v) && (v <? 128)); Some [v mod 256].
Definition pack_h (v : Z) : option bytes :=
  do! ((-32768 <=? v) && (v <? 32768)); Some [(v mod 65536) mod 256; (v mod 65536) / 256].

(** Concatenation of a sequence of packed fields (b''.join / res += ...). *)
Fixpoint concat_opt (l : list (option bytes)) : option bytes :=
  match l with
  | [] => Some []
  | x :: r => do a <- x; do b <- concat_opt r; Some (a ++ b)
  end.

Definition len {A} (l : list A) : Z := Z.of_nat (length l).

(** grf/common.py:213-215 DataReader.get_byte; data[offset]. *)
Definition rd_B (d : bytes) : option (Z * bytes) :=
  match d with b :: r => Some (b, r) | [] => None end.

(** grf/common.py:199-200 read_word, 221-222 get_word. *)
Definition rd_H (d : bytes) : option (Z * bytes) :=
  do (b0, d) <- rd_B d; do (b1, d) <- rd_B d;
  Some (Z.lor b0 (Z.shiftl b1 8), d).

(** grf/common.py:203-204 read_dword. *)
Definition rd_I (d : bytes) : option (Z * bytes) :=
  do (b0, d) <- rd_B d; do (b1, d) <- rd_B d; do (b2, d) <- rd_B d; do (b3, d) <- rd_B d;
  Some (Z.lor (Z.lor (Z.lor b0 (Z.shiftl b1 8)) (Z.shiftl b2 16)) (Z.shiftl b3 24), d).

(** Signed byte: struct.unpack('<b') and int.from_bytes(signed=True)
    (grf/decompile.py:171-172). *)
Definition rd_b (d : bytes) : option (Z * bytes) :=
  do (b, d) <- rd_B d; Some ((if b <? 128 then b else b - 256), d).
(** Signed word: struct.unpack('<h'). *)
Definition rd_h (d : bytes) : option (Z * bytes) :=
  do (v, d) <- rd_H d; Some ((if v <? 32768 then v else v - 65536), d).

(** grf/common.py:185-189 read_extended_byte, 217-219 get_extended_byte. *)
Definition rd_ext (d : bytes) : option (Z * bytes) :=
  do (res, d) <- rd_B d;
  if negb (res =? 255) then Some (res, d) else rd_H d.

(** grf/common.py:192-196 encode_extended_byte. *)
Definition encode_ext (value : Z) : option bytes :=
  if value <? 255 then pack_B value
  else concat_opt [pack_B 255; pack_H value].

(** Slicing data[ofs: ofs + n]: never raises, silently shorter at the end. *)
Definition slice (n : nat) (d : bytes) : bytes * bytes := (firstn n d, skipn n d).

(** The next [n] bytes via [n] item accesses: raises when short. *)
Fixpoint rd_n {A} (rd : bytes -> option (A * bytes)) (n : nat) (d : bytes)
  : option (list A * bytes) :=
  match n with
  | O => Some ([], d)
  | S n => do (x, d) <- rd d; do (l, d) <- rd_n rd n d; Some (x :: l, d)
  end.

(** bytes((x, y, ...)) / bytes(list): raises unless all are in 0..255. *)
Definition mk_bytes (l : list Z) : option bytes := do! (bytesb l); Some l.

(** grf/common.py:148-174: the feature table has exactly the ids 0x00..0x14;
    Feature(id) raises KeyError for any other id (121-123). *)
Definition feature_of (id : Z) : option Z := do! ((0 <=? id) && (id <=? 20)); Some id.
