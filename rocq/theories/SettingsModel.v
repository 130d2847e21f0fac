(** Model of the global train settings (grf/lib/train.py:303-346) and of
    EngineOverride (grf/lib/vehicle.py:210-228).  Definitions only.  None models
    any Python exception.  Each generator yields one action; its get_data is
    RecordsModel.actionD_data (actions.py:2265-2286) or Action0Model.define_data
    (actions.py:1423-1435). *)
From Coq Require Import ZArith List Bool String.
From Verif Require Import Base RecordsModel PropModel Action0Model.
Import ListNotations.
Open Scope string_scope.
Open Scope Z_scope.

(** train.py:303-318 SetGlobalTrainDepotYOffset *)
Definition depot_y_offset (offset : Z) : actionD := mkAD 142 0 false 255 255 (DVNum offset).

(** train.py:321-329 GlobalTrainMiscFlag *)
Definition DESERT_TREES_AND_FIELDS : Z := 0.
Definition DESERT_PAVEMENT_AND_LIGHTS : Z := 1.
Definition FIELDS_BOUNDING_BOX : Z := 2.
Definition DEPOT_FULL_TRAIN_WIDTH : Z := 3.
Definition AMBIENT_SOUND_CB : Z := 4.
Definition THIRD_TRACK_CATENARIES : Z := 5.
Definition SECOND_ROCKY_SET : Z := 6.
Definition TTDPATCH_FLAG : Z := 31.

(** train.py:332-346 SetGlobalTrainMiscFlag: [1 << flag] raises for a negative
    flag. *)
Definition misc_flag (flag : Z) : option actionD :=
  do! (0 <=? flag);
  Some (mkAD 158 8 false 158 255 (DVNum (Z.shiftl 1 flag))).

(** vehicle.py:218-228 EngineOverride.get_sprites; [grfid] is g.grfid, four
    bytes.  Define (actions.py:1464-1466) makes a one-element list of the
    tuple. *)
Definition engine_override (grfid : bytes) (target : label) (source : option label) : option define :=
  let source := match source with Some s => s | None => LBytes grfid end in
  define_init (mkDef 8 0 1 [("grfid_overrides", [VLabels [source; target] true])]).
