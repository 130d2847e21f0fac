(** What the admin port of the game understands (docs/admin_network.md of
    OpenTTD): packets framed by a 16-bit little-endian length that counts
    itself and the type byte; strings end at the first NUL. *)
From Verif Require Import Base UtilsModel.
From Coq Require Import ZArith List.
Import ListNotations.
Open Scope Z_scope.

(** The stream [b] consists of exactly these packets (type, payload). *)
Inductive Packets : bytes -> list (Z * bytes) -> Prop :=
| no_packets : Packets [] []
| one_packet : forall lo hi t payload rest l,
    0 <= lo < 256 -> 0 <= hi < 256 -> 0 <= t < 256 ->
    lo + 256 * hi = len payload + 3 -> Packets rest l ->
    Packets (lo :: hi :: t :: payload ++ rest) ((t, payload) :: l).

(** A string and the bytes after it. *)
Definition reads_string (d s rest : bytes) : Prop := d = s ++ 0 :: rest /\ ~ In 0 s.

Inductive command := Join (password name version : bytes) | Chat (source : bytes) (colour : Z) (user text : bytes) | Console (line : bytes).

(** The meaning of a packet: ADMIN_JOIN 0, ADMIN_RCON 5, ADMIN_EXTERNAL_CHAT 8. *)
Definition means (p : Z * bytes) (c : command) : Prop :=
  match c with
  | Join pw name version => fst p = 0 /\ exists a b, reads_string (snd p) pw a /\ reads_string a name b /\ reads_string b version []
  | Console line => fst p = 5 /\ reads_string (snd p) line []
  | Chat source colour user text => fst p = 8 /\
      exists a lo hi b, reads_string (snd p) source (lo :: hi :: a) /\ 0 <= lo < 256 /\ colour = lo + 256 * hi /\
        reads_string a user b /\ reads_string b text []
  end.

Definition Received (b : bytes) (l : list command) : Prop := exists ps, Packets b ps /\ Forall2 means ps l.

(** The complete lines of a text, and the unfinished last one. *)
Definition Lines (s : bytes) (ls : list bytes) (tail : bytes) : Prop :=
  s = concat (map (fun l => l ++ [10]) ls) ++ tail /\ Forall (fun l => ~ In 10 l) ls /\ ~ In 10 tail.

(** A printed message: at most one newline, at its end, and no NUL. *)
Definition printed (m : bytes) : Prop := ~ In 0 m /\ (~ In 10 m \/ exists s, m = s ++ [10] /\ ~ In 10 s).

(** Decimal digits of a port number. *)
Definition is_digits (s : bytes) : Prop := s <> [] /\ Forall (fun c => 48 <= c <= 57) s.
Definition number_of (s : bytes) : Z := fold_left (fun a c => 10 * a + (c - 48)) s 0.
