(** Model of SpriteCache (grf/cache.py) and its use while writing
    (grf/grf.py:589-603, 635-655), including a process that dies at any moment.
    Definitions only.

    A key is a number (the 16 hexadecimal digits); a directory is a map from
    keys to file contents.  A missing and an unparsable index.json are the same
    to load(), so both are [None]. *)
From Coq Require Import ZArith List Bool Arith.
From Verif Require Import Base.
Import ListNotations.
Open Scope Z_scope.

Definition key := nat.
Definition kmem (k : key) (l : list key) : bool := existsb (Nat.eqb k) l.
Definition kset {A} (f : key -> A) (k : key) (v : A) : key -> A := fun x => if Nat.eqb x k then v else f x.

Record disk := mkDisk { d_index : option (list key); d_files : key -> option bytes }.
Record cache := mkCache { c_old : list key; c_index : list key; c_new : list key }.
(** cache.py:12-17 *)
Definition new_cache : cache := mkCache [] [] [].

(** cache.py:19-35 *)
Definition cache_load (d : disk) (clean : bool) : cache :=
  let idx := match d_index d with Some l => l | None => [] end in
  mkCache idx (if clean then [] else idx) [].
(** cache.py:37-51: the keys that are deleted *)
Definition stale (c : cache) (k : key) : bool := kmem k (c_old c) && negb (kmem k (c_new c)).
Definition cache_save (d : disk) (c : cache) : disk * cache :=
  let idx := filter (fun k => negb (stale c k)) (c_index c) in
  (mkDisk (Some idx) (fun k => if stale c k then None else d_files d k), mkCache (c_new c) idx []).
(** cache.py:64-66 *)
Definition is_cached (c : cache) (k : key) : bool := kmem k (c_index c).
(** cache.py:68-77 *)
Definition cache_get (d : disk) (c : cache) (k : key) : cache * option bytes :=
  if kmem k (c_index c) then (mkCache (c_old c) (c_index c) (k :: c_new c), d_files d k) else (c, None).
(** cache.py:79-84 *)
Definition cache_set (d : disk) (c : cache) (k : key) (v : bytes) : disk * cache :=
  (mkDisk (d_index d) (kset (d_files d) k (Some v)),
   mkCache (c_old c) (if kmem k (c_index c) then c_index c else k :: c_index c) (k :: c_new c)).

(** grf.py:635-655 for a cacheable sprite: look the key up, otherwise encode
    and store. *)
Definition cached_data (d : disk) (c : cache) (k : key) (real : bytes) : disk * cache * bytes :=
  match cache_get d c k with
  | (c, Some v) => (d, c, v)
  | (c, None) => let '(d, c) := cache_set d c k real in (d, c, real)
  end.

(** What happens to a cache directory.  A process can die between two
    operations (ODie), while set() writes a file, of which any beginning may
    have reached the disk (OSetDie), or in save() after deleting some of the
    stale files, with index.json untouched (OSaveDie) or truncated
    (OSaveDieIndex). *)
Inductive cop :=
| OLoad (clean : bool) | OGet (k : key) | OSet (k : key) (v : bytes) | OData (k : key) (real : bytes) | OSave
| ODie | OSetDie (k : key) (part : bytes) | OSaveDie (gone : list key) | OSaveDieIndex.
Definition cworld := (disk * cache)%type.
Definition drop_files (f : key -> option bytes) (gone : key -> bool) : key -> option bytes := fun k => if gone k then None else f k.
Definition cstep (w : cworld) (o : cop) : cworld * option bytes :=
  let '(d, c) := w in
  match o with
  | OLoad clean => ((d, cache_load d clean), None)
  | OGet k => let '(c, r) := cache_get d c k in ((d, c), r)
  | OSet k v => (cache_set d c k v, None)
  | OData k real => let '(d, c, r) := cached_data d c k real in ((d, c), Some r)
  | OSave => (cache_save d c, None)
  | ODie => ((d, new_cache), None)
  | OSetDie k part => ((mkDisk (d_index d) (kset (d_files d) k (Some part)), new_cache), None)
  | OSaveDie gone => ((mkDisk (d_index d) (drop_files (d_files d) (fun k => stale c k && kmem k gone)), new_cache), None)
  | OSaveDieIndex => ((mkDisk None (drop_files (d_files d) (stale c)), new_cache), None)
  end.
Fixpoint crun (w : cworld) (ops : list cop) : cworld * list (option bytes) :=
  match ops with
  | [] => (w, [])
  | o :: rest => let '(w, r) := cstep w o in let '(w, rs) := crun w rest in (w, r :: rs)
  end.
Definition empty_disk : disk := mkDisk None (fun _ => None).
