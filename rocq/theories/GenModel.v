(** Model of what a NewGRF object collects: BaseNewGRF.add, _add, _add_sound,
    generate_sprites (grf/grf.py:216-262, 319-334) and the sounds part of
    resolve_refs and _do_write (356-361, 583-586).  Definitions only.

    Actions, resources and sounds are Python objects, represented by numbers.
    [fp] is get_fingerprint of a sound (for RAWSound its SoundFile object,
    which is compared by identity: grf/sprites.py:184-206, 823-824).
    get_sprites of a generator is taken as a fixed finite list. *)
From Coq Require Import ZArith List Bool.
From Verif Require Import Base RecordsModel.
Import ListNotations.
Open Scope Z_scope.

Definition sid := nat.
(** Anything a user can add, or a generator can produce: an action (with the
    resource actions that are not SingleResourceAction), a bare resource, a
    SingleResourceAction of a sprite or of a sound, a sound, a generator. *)
Inductive item :=
| IAction (a : nat) | IResource (r : nat) | ISingle (r : nat) | ISingleSound (s : sid) | ISound (s : sid)
| IGen (l : list item).
(** What ends up in the list of actions: an action, or a SingleResourceAction
    made for a resource. *)
Inductive out := OAction (a : nat) | OResource (r : nat).
(** An element of self.generators. *)
Inductive held := HOut (o : out) | HGen (l : list item).

(** 216-225: _next_sound_id, _sounds (fingerprint -> the sound registered for
    it), the id attribute of the sounds, and generators. *)
Record sounds := mkSounds { s_next : Z; s_tab : list (nat * sid); s_ids : sid -> option Z }.
Record grf := mkGrf { g_held : list held; g_sounds : sounds }.
Definition new_grf (ids : sid -> option Z) : grf := mkGrf [] (mkSounds 73 [] ids).

Definition set_id (ids : sid -> option Z) (s : sid) (v : option Z) : sid -> option Z :=
  fun x => if Nat.eqb x s then v else ids x.
(** 232-243 _add_sound: the state afterwards and whether it returned. *)
Definition add_sound (fp : sid -> nat) (st : sounds) (s : sid) : sounds * bool :=
  let h := fp s in
  match dict_get Nat.eqb (s_tab st) h with
  | Some t => (mkSounds (s_next st) (s_tab st) (set_id (s_ids st) s (s_ids st t)), true)
  | None =>
      if s_next st >? 255 then (st, false)
      else (mkSounds (s_next st + 1) (dict_set Nat.eqb (s_tab st) h s) (set_id (s_ids st) s (Some (s_next st))), true)
  end.

(** 245-260 _add of an item that is not expanded: the sounds afterwards, what
    is appended, and whether it returned.  A SingleResourceAction is not
    appended (the return of 251 is reached for sprites too) and _add_sound is
    given the wrapper of a sound, which fails its assertion. *)
Definition add_item {A} (wrap : out -> A) (gen : list item -> A) (fp : sid -> nat) (st : sounds) (i : item) : sounds * list A * bool :=
  match i with
  | IAction a => (st, [wrap (OAction a)], true)
  | IResource r => (st, [wrap (OResource r)], true)
  | ISingle _ => (st, [], true)
  | ISingleSound _ => (st, [], false)
  | ISound s => let '(st, ok) := add_sound fp st s in (st, [], ok)
  | IGen l => (st, [gen l], true)
  end.
(** 262-264 add( *sprites ): stops at the first exception. *)
Fixpoint add_items (fp : sid -> nat) (g : grf) (l : list item) : grf * bool :=
  match l with
  | [] => (g, true)
  | i :: l =>
      let '(st, h, ok) := add_item HOut HGen fp (g_sounds g) i in
      let g := mkGrf (g_held g ++ h) st in
      if ok then add_items fp g l else (g, false)
  end.

(** 322-327 run(g): the items of a generator, generators among them
    recursively. *)
Fixpoint run_item (fp : sid -> nat) (st : sounds) (i : item) : sounds * list out * bool :=
  match i with
  | IGen l =>
      (fix go (st : sounds) (l : list item) : sounds * list out * bool :=
         match l with
         | [] => (st, [], true)
         | i :: l =>
             let '(st, o, ok) := run_item fp st i in
             if ok then let '(st, o', ok) := go st l in (st, o ++ o', ok) else (st, o, false)
         end) st l
  | _ => add_item (fun o => o) (fun _ => OAction 0) fp st i
  end.
(** 319-334 generate_sprites *)
Fixpoint generate (fp : sid -> nat) (st : sounds) (l : list held) : sounds * list out * bool :=
  match l with
  | [] => (st, [], true)
  | h :: l =>
      let '(st, o, ok) := match h with HOut o => (st, [o], true) | HGen l => run_item fp st (IGen l) end in
      if ok then let '(st, o', ok) := generate fp st l in (st, o ++ o', ok) else (st, o, false)
  end.
(** 356-361: the sounds found among the references, as resolve meets them. *)
Fixpoint add_sounds (fp : sid -> nat) (st : sounds) (l : list sid) : sounds * bool :=
  match l with
  | [] => (st, true)
  | s :: l => let '(st, ok) := add_sound fp st s in if ok then add_sounds fp st l else (st, false)
  end.
(** 583-586: the SoundEffects action with its count and the sounds after it. *)
Definition sound_section (st : sounds) : option (Z * list sid) :=
  match s_tab st with [] => None | t => Some (len t, map snd t) end.
(** 2329-2330: get_data of SoundEffects (grf/actions.py). *)
Definition sound_effects_data (count : Z) : option bytes := concat_opt [pack_B 17; pack_H count].

(** One write(): generation, then [refs], the sounds among the references. *)
Definition write_grf (fp : sid -> nat) (g : grf) (refs : list sid) : grf * option (list out * option (Z * list sid)) :=
  let '(st, o, ok) := generate fp (g_sounds g) (g_held g) in
  if ok then
    let '(st, ok) := add_sounds fp st refs in
    (mkGrf (g_held g) st, if ok then Some (o, sound_section st) else None)
  else (mkGrf (g_held g) st, None).

(** What a program does with the object; an exception is caught and the program
    goes on. *)
Inductive gop := GAdd (l : list item) | GWrite (refs : list sid).
Definition gstep (fp : sid -> nat) (g : grf) (o : gop) : grf :=
  match o with GAdd l => fst (add_items fp g l) | GWrite refs => fst (write_grf fp g refs) end.
Definition grun (fp : sid -> nat) (g : grf) (ops : list gop) : grf := fold_left (gstep fp) ops g.

(** sprites.py:809-814 RAWSound(path): a new SoundFile object [n] is made. *)
Definition raw_sound (path : nat) (n : nat) : nat * nat := (path, n).
Definition raw_fp (s : nat * nat) : nat := snd s.
