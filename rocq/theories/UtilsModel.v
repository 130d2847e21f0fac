(** Model of grf/utils.py: the admin-port packets of live reload, the
    connection string and the loop that watches files and rebuilds.

    Strings are their UTF-8 bytes (the encoding keeps '\n', '@', ':' and NUL
    as single bytes that occur nowhere else). *)
From Verif Require Import Base.
From Coq Require Import ZArith List Bool Lia.
Import ListNotations.
Open Scope Z_scope.

(** ** Packets, utils.py:21-47 *)

Inductive field := FStr (s : bytes) | FInt (v : Z).

(** The format characters in use: 'z' and 'H' (and 'B', 'I' of struct). *)
Inductive fmt_char := Fz | FB | FH | FI.

(** utils.py:29-41 ttd_pack; zip stops at the shorter argument; a string
    where struct wants a number, or a number for 'z' (len), raises. *)
Fixpoint ttd_pack (fmt : list fmt_char) (data : list field) : option bytes :=
  match fmt, data with
  | c :: fmt, d :: data =>
      do a <- match c, d with
              | Fz, FStr s => Some (s ++ [0])
              | FB, FInt v => pack_B v
              | FH, FInt v => pack_H v
              | FI, FInt v => pack_I v
              | _, _ => None
              end;
      do b <- ttd_pack fmt data; Some (a ++ b)
  | _, _ => Some []
  end.

(** utils.py:44-47 make_packet; bytes((...)) raises unless all three numbers
    are bytes. *)
Definition make_packet (packet_type : Z) (fmt : list fmt_char) (args : list field) : option bytes :=
  do data <- ttd_pack fmt args;
  let size := len data + 3 in
  do! byteb (Z.shiftr size 8); do! byteb packet_type;
  Some ([Z.land size 255; Z.shiftr size 8; packet_type] ++ data).

(** utils.py:21-24 *)
Definition ADMIN_JOIN := 0.
Definition ADMIN_RCON := 5.
Definition ADMIN_EXTERNAL_CHAT := 8.
Definition ADMIN_NAME : bytes := [103; 114; 102; 45; 112; 121; 32; 108; 105; 118; 101; 32; 114; 101; 108; 111; 97; 100].
Definition ADMIN_VERSION : bytes := [49; 46; 48].
Definition CHAT_SOURCE : bytes := [103; 114; 102; 45; 112; 121].
Definition RELOAD : bytes := [114; 101; 108; 111; 97; 100; 95; 110; 101; 119; 103; 114; 102; 115].

(** str.rstrip('\n'), str.endswith('\n') *)
Fixpoint rstrip_nl (s : bytes) : bytes :=
  match s with
  | [] => []
  | c :: s => match rstrip_nl s with
              | [] => if c =? 10 then [] else [c]
              | r => c :: r
              end
  end.
Definition ends_nl (s : bytes) : bool := last s 0 =? 10.

(** utils.py:62-73 the loop over the queue.  The result is what has been
    written and whether None was met (otherwise it waits for ever). *)
Fixpoint log_loop (prev : bytes) (q : list (option bytes)) : option (bytes * bool) :=
  match q with
  | [] => Some ([], false)
  | None :: _ => Some ([], true)
  | Some msg :: q =>
      if ends_nl msg then
        do p <- make_packet ADMIN_EXTERNAL_CHAT [Fz; FH; Fz; Fz]
                  [FStr CHAT_SOURCE; FInt 1; FStr []; FStr (prev ++ rstrip_nl msg)];
        do (r, fin) <- log_loop [] q; Some (p ++ r, fin)
      else log_loop (prev ++ msg) q
  end.

(** utils.py:50-75 admin_logging, the bytes written to the connection. *)
Definition admin_logging (password : bytes) (q : list (option bytes)) : option bytes :=
  do join <- make_packet ADMIN_JOIN [Fz; Fz; Fz] [FStr password; FStr ADMIN_NAME; FStr ADMIN_VERSION];
  do (body, fin) <- log_loop [] q;
  if fin : bool then do rcon <- make_packet ADMIN_RCON [Fz] [FStr RELOAD]; Some (join ++ body ++ rcon)
  else Some (join ++ body).

(** ** The connection string, utils.py:120-131 *)

Definition AT := 64.
Definition COLON := 58.

(** s.split(c, 1): at the first occurrence. *)
Fixpoint split1 (c : Z) (s : bytes) : option (bytes * bytes) :=
  match s with
  | [] => None
  | x :: s => if x =? c then Some ([], s)
              else match split1 c s with None => None | Some (a, b) => Some (x :: a, b) end
  end.
(** s.rsplit(c, 1): at the last occurrence. *)
Fixpoint rsplit1 (c : Z) (s : bytes) : option (bytes * bytes) :=
  match s with
  | [] => None
  | x :: s => match rsplit1 c s with
              | Some (a, b) => Some (x :: a, b)
              | None => if x =? c then Some ([], s) else None
              end
  end.

Definition digit (c : Z) : option Z := if (48 <=? c) && (c <=? 57) then Some (c - 48) else None.
(** int(port_str) of plain decimal digits; anything else is taken to raise
    (Python's int also accepts blanks, signs, underscores and other scripts'
    digits). *)
Fixpoint digits_value (acc : Z) (s : bytes) : option Z :=
  match s with
  | [] => Some acc
  | c :: s => do d <- digit c; digits_value (10 * acc + d) s
  end.
Definition py_int (s : bytes) : option Z := match s with [] => None | _ => digits_value 0 s end.

Definition LOCALHOST : bytes := [108; 111; 99; 97; 108; 104; 111; 115; 116].

(** address, port, password *)
Definition live_reload (s : bytes) : option (bytes * Z * bytes) :=
  do (s, port) <- match rsplit1 COLON s with
                  | Some (s, p) => do n <- py_int p; Some (s, n)
                  | None => Some (s, 3977)
                  end;
  match split1 AT s with
  | Some (pw, addr) => Some (addr, port, pw)
  | None => Some (LOCALHOST, port, s)
  end.

(** ** Watching files, utils.py:135-189 *)

(** Files are numbers; [disk f] counts the changes of file f.  [w_list] is
    event_handler.file_list, [w_modified] the set of changed files.  The
    observer thread runs on_modified at any time; the loop is at one of the
    places of [phase].  [Building] keeps the versions the build has read so
    far (any file may be read at any moment of the build, later reads win);
    [w_seen] is what the last successful build read (the contents of the grf
    file), [w_start] the state of the disk when the last build began.
    (Simplification: paths are resolved and compared as numbers, sleeping
    and printing are left out, adding a watched directory is immediate.) *)
Inductive phase := Idle | Ready | Building (reads : nat -> option nat).

Record watch := mk_watch {
  w_disk : nat -> nat;
  w_list : option (list nat);
  w_modified : list nat;
  w_phase : phase;
  w_seen : nat -> option nat;
  w_start : option (nat -> nat) }.

Inductive event :=
| Change (f : nat)           (* the user saves a file *)
| Check                      (* 167: the loop looks *)
| Begin                      (* 170-177: reset() and start of the build *)
| Read (f : nat)             (* the build reads a file *)
| Done (files : list nat)    (* the build succeeds: 183 *)
| Fail.                      (* the build raises: 178-181 *)

Definition bump (d : nat -> nat) (f : nat) : nat -> nat := fun g => if Nat.eqb g f then S (d g) else d g.

(** utils.py:143-147 on_modified *)
Definition on_modified (w : watch) (f : nat) : list nat :=
  match w_list w with
  | None => w_modified w
  | Some l => if existsb (Nat.eqb f) l then f :: w_modified w else w_modified w
  end.

Definition wstep (w : watch) (e : event) : option watch :=
  match e, w_phase w with
  | Change f, _ =>
      Some (mk_watch (bump (w_disk w) f) (w_list w) (on_modified w f) (w_phase w) (w_seen w) (w_start w))
  | Check, Idle =>
      (* utils.py:167 if event_handler.modified or event_handler.file_list is None *)
      let go := match w_modified w, w_list w with [], Some _ => false | _, _ => true end in
      Some (mk_watch (w_disk w) (w_list w) (w_modified w) (if go then Ready else Idle) (w_seen w) (w_start w))
  | Begin, Ready =>
      Some (mk_watch (w_disk w) (w_list w) [] (Building (fun _ => None)) (w_seen w) (Some (w_disk w)))
  | Read f, Building r =>
      Some (mk_watch (w_disk w) (w_list w) (w_modified w)
              (Building (fun g => if Nat.eqb g f then Some (w_disk w f) else r g)) (w_seen w) (w_start w))
  | Done files, Building r =>
      (* utils.py:183: the new list replaces the old one *)
      Some (mk_watch (w_disk w) (Some files) (w_modified w) Idle r (w_start w))
  | Fail, Building _ =>
      Some (mk_watch (w_disk w) (w_list w) (w_modified w) Idle (w_seen w) (w_start w))
  | _, _ => None
  end.

(** utils.py:136-138, 160: nothing watched, nothing built yet. *)
Definition wstart (d : nat -> nat) : watch := mk_watch d None [] Idle (fun _ => None) None.

Fixpoint wrun (w : watch) (l : list event) : option watch :=
  match l with
  | [] => Some w
  | e :: l => do w <- wstep w e; wrun w l
  end.
