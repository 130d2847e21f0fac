(** Theorems for C08, C09, C12, C52: the Action 2 records other than switches.
    [bytes written] = 2 :: data; the decoder gets the data. *)
From Coq Require Import ZArith List Bool Lia ZifyBool.
From Verif Require Import Base BaseFacts CommonModel RecordsModel VA2Model VA2DecodeModel Action2Model SpecAction2 Action2Proofs.
Import ListNotations.
Open Scope Z_scope.

(** ** C08: generic sprite layouts *)
Theorem C08_generic_roundtrip : forall vinvs g b, generic_init g = Some g -> generic_ok g -> generic_data g = Some b ->
  exists d, b = 2 :: d /\ decode_action2 vinvs d = Some (A2Generic g).
Proof. exact generic_rt. Qed.

Theorem C08_generic_encodable : forall g, generic_ok g -> 0 <= gl_ref_id g < 256 ->
  len (gl_ent1 g) < 256 -> len (gl_ent2 g) < 256 -> Forall (fun x => 0 <= x < 65536) (gl_ent1 g ++ gl_ent2 g) ->
  generic_init g = Some g /\ exists b, generic_data g = Some b.
Proof. exact generic_encodable. Qed.

(** With 128-134, 137 or 138 first entries the record is never read as a
    sprite layout. *)
Theorem C08_collision_refuted : forall vinvs g d, In (len (gl_ent1 g)) switch_types ->
  generic_data g = Some (2 :: d) -> forall g', decode_action2 vinvs d <> Some (A2Generic g').
Proof. exact generic_collision. Qed.

Example C08_example : generic_ok (mkGen2 4 17 [3; 65535] [7])
  /\ generic_data (mkGen2 4 17 [3; 65535] [7]) = Some [2; 4; 17; 2; 1; 3; 0; 255; 255; 7; 0]
  /\ (exists d, In (len (repeat 5 129)) switch_types /\ generic_init (mkGen2 4 17 (repeat 5 129) []) = Some (mkGen2 4 17 (repeat 5 129) [])
        /\ generic_data (mkGen2 4 17 (repeat 5 129) []) = Some (2 :: d)).
Proof.
  split; [repeat split; cbn; lia|]. split; [reflexivity|]. eexists. split; [cbn; tauto|]. split; reflexivity.
Qed.

(** ** C09: layouts with tile sprites.  Full statement: every layout the class
    accepts reads back.  Negative offsets, a parent at height 128, palette and
    delta registers, the other two accepted features and the two-element offset
    of basic layouts do not. *)
Theorem C09_advanced_roundtrip_partial : forall vinvs l b, advanced_init l = Some l -> layout_ok l -> advanced_data l = Some b ->
  exists d, b = 2 :: d /\ decode_action2 vinvs d = Some (A2Layout LAdvanced (layout_norm l)).
Proof. exact advanced_rt. Qed.

Theorem C09_advanced_encodable : forall l, layout_ok l -> 0 <= ly_ref_id l < 256 -> building_enc (ly_ground l) ->
  Forall building_enc (ly_buildings l) -> advanced_init l = Some l /\ exists b, advanced_data l = Some b.
Proof. exact advanced_encodable. Qed.

(** What was read back is written as the same bytes. *)
Theorem C09_advanced_recompile : forall l, layout_ok l -> advanced_data (layout_norm l) = advanced_data l.
Proof. exact advanced_re. Qed.

Theorem C09_basic_decode_partial : forall vinvs l x y ex s0 b, In (ly_feature l) [7; 9; 15] ->
  ly_buildings l = [s0] -> ls_offset s0 = Some [x; y] -> ls_extent s0 = Some ex -> 0 <= x -> 0 <= y ->
  sprite_id_ok (ls_sprite (ly_ground l)) -> sprite_id_ok (ls_sprite s0) -> basic_data l = Some b ->
  exists d, b = 2 :: d /\ decode_action2 vinvs d = Some (A2Layout LBasic
    (mkLay (ly_feature l) (ly_ref_id l) (mkLS (ls_sprite (ly_ground l)) None None None [])
       [mkLS (ls_sprite s0) (Some [x; y; 0]) (Some ex) None []])).
Proof. exact basic_rt. Qed.

Theorem C09_basic_recompile_refuted : forall vinvs d l, decode_action2 vinvs d = Some (A2Layout LBasic l) -> basic_data l = None.
Proof. exact basic_dead. Qed.

Definition sp (n : Z) : sprite_ref := mkSR n 0 false false false true.
Definition gr0 : lsprite := mkLS (sp 1420) None None None [].
Definition lay (b : lsprite) : layout := mkLay 15 3 gr0 [b].

(** The layouts the format cannot carry, each accepted and written: a negative
    offset comes back as 256 - n, ... *)
Theorem C09_negative_offset_refuted : exists l b d l', advanced_init l = Some l /\ advanced_data l = Some b /\ b = 2 :: d /\
  ly_buildings l = [mkLS (sp 5) (Some [-3; 0; 0]) (Some [16; 16; 9]) None []] /\
  decode_action2 (fun _ => None) d = Some (A2Layout LAdvanced l') /\
  ly_buildings l' = [mkLS (sp 5) (Some [253; 0; 0]) (Some [16; 16; 9]) None []].
Proof.
  eexists (lay (mkLS (sp 5) (Some [-3; 0; 0]) (Some [16; 16; 9]) None [])), _, _, _.
  split; [reflexivity|]. split; [vm_compute; reflexivity|]. split; [reflexivity|]. split; [reflexivity|].
  split; [vm_compute; reflexivity|]. reflexivity.
Qed.
(** ... a parent at height 128 comes back as a child, its extent as registers or junk, ... *)
Theorem C09_height_refuted : exists l b d, advanced_init l = Some l /\ advanced_data l = Some b /\ b = 2 :: d /\
  ly_buildings l = [mkLS (sp 5) (Some [0; 0; 128]) (Some [16; 16; 9]) None []] /\
  forall k l', decode_action2 (fun _ => None) d = Some (A2Layout k l') ->
  ly_buildings l' = [mkLS (sp 5) None None (Some [0; 0]) []].
Proof.
  eexists (lay (mkLS (sp 5) (Some [0; 0; 128]) (Some [16; 16; 9]) None [])), _, _.
  split; [reflexivity|]. split; [vm_compute; reflexivity|]. split; [reflexivity|]. split; [reflexivity|].
  intros k l' H. vm_compute in H. injection H as _ <-. reflexivity.
Qed.
(** ... a palette register sets its flag but is not written: the reader takes
    the next sprite's byte, or runs off the record, ... *)
Theorem C09_palette_register_refuted : exists l b d, advanced_init l = Some l /\ advanced_data l = Some b /\ b = 2 :: d /\
  ly_buildings l = [mkLS (sp 5) (Some [0; 0; 0]) (Some [16; 16; 9]) None [(KAddPalette, SInt 4)]] /\
  decode_action2 (fun _ => None) d = None.
Proof.
  eexists (lay (mkLS (sp 5) (Some [0; 0; 0]) (Some [16; 16; 9]) None [(KAddPalette, SInt 4)])), _, _.
  split; [reflexivity|]. split; [vm_compute; reflexivity|]. split; [reflexivity|]. split; reflexivity.
Qed.
(** ... and layouts for road stops and industries are read as something else. *)
Theorem C09_features_refuted : exists b20 b10 d20 d10 g,
  advanced_data (mkLay 20 3 gr0 []) = Some b20 /\ b20 = 2 :: d20 /\ decode_action2 (fun _ => None) d20 = g /\
  advanced_data (mkLay 10 3 gr0 []) = Some b10 /\ b10 = 2 :: d10 /\ decode_action2 (fun _ => None) d10 = None /\
  (forall k l, g <> Some (A2Layout k l)).
Proof.
  do 5 eexists. split; [vm_compute; reflexivity|]. split; [reflexivity|]. split; [vm_compute; reflexivity|].
  split; [vm_compute; reflexivity|]. split; [reflexivity|]. split; [vm_compute; reflexivity|]. discriminate.
Qed.

Definition lay_example : layout :=
  mkLay 15 3 (mkLS (sp 1420) None None None [(KDodraw, SInt 9)])
    [mkLS (sp 5) (Some [2; 4; 8]) (Some [16; 16; 9]) None [(KPaletteVar10, SInt 2); (KAdd, STemp 6); (KCustomPalette, STrue)];
     mkLS (sp 6) None None (Some [3; 200]) []; mkLS (sp 7) None (Some [1; 2; 3]) None []].
Example C09_example : layout_ok lay_example /\ building_enc (ly_ground lay_example) /\ Forall building_enc (ly_buildings lay_example)
  /\ layout_norm lay_example = mkLay 15 3 (mkLS (sp 1420) None None None [(KDodraw, SInt 9)])
    [mkLS (sp 5) (Some [2; 4; 8]) (Some [16; 16; 9]) None [(KAdd, STemp 6); (KCustomPalette, STrue); (KPaletteVar10, SInt 2)];
     mkLS (sp 6) None None (Some [3; 200]) []; mkLS (sp 7) (Some [0; 0; 0]) (Some [1; 2; 3]) None []]
  /\ exists b, advanced_data lay_example = Some b /\ length b = 46%nat.
Proof.
  assert (P : forall l, forallb (fun k => existsb (skey_beq k) plain_keys) l = true -> incl l plain_keys).
  { intros l H k I. rewrite forallb_forall in H. specialize (H k I). apply existsb_exists in H as [k' [J E]].
    apply skey_eqb_eq in E. now subst. }
  assert (S : forall n, 0 <= n < 100 -> sprite_id_ok (sp n)) by (intros; unfold sprite_id_ok, sp; cbn [sr_id sr_pal]; lia).
  split; [|split; [|split; [|split]]].
  - split; [cbn; lia|]. split; [split; [unfold sprite_id_ok; cbn; lia|apply P; reflexivity]|].
    split; [|reflexivity]. cbn [ly_buildings lay_example].
    repeat (apply Forall_cons; [split; [apply S; lia|split; [apply P; reflexivity|]]|]); [| | |apply Forall_nil];
      cbn [ls_offset]; intros x y z E; try discriminate E; injection E as <- <- <-; lia.
  - split; [|repeat split; discriminate]. apply Forall_cons; [cbn; lia|apply Forall_nil].
  - cbn [ly_buildings lay_example].
    repeat (apply Forall_cons; [split; [cbn [ls_regs]; unfold regs_ok; repeat (apply Forall_cons; [cbn; lia|]); apply Forall_nil
       |split; [|split]; intros q E; try discriminate E; cbn in E; injection E as <-; repeat eexists; lia]|]). apply Forall_nil.
  - reflexivity.
  - eexists. split; vm_compute; reflexivity.
Qed.

(** ** C12: random switches.  Full statement: for every scope.  Relative
    switches lose their count (vehicles) or cannot be written (others). *)
Theorem C12_random_roundtrip_partial : forall vinvs r b, random_ok r -> random_data r = Some b ->
  exists d, b = 2 :: d /\ decode_action2 vinvs d = Some (A2Random (random_norm r)).
Proof. exact random_rt. Qed.

Theorem C12_random_encodable : forall r, random_ok r -> 0 <= rs_ref_id r < 256 -> 0 <= rs_lowest r < 256 ->
  len (rs_groups r) < 256 -> Forall (fun x => 0 <= get_ref_id x < 65536) (rs_groups r) ->
  random_init r = Some r /\ exists b, random_data r = Some b.
Proof. exact random_encodable. Qed.

Theorem C12_relative_refuted : forall r, random_init r = Some r -> rs_scope r = RRelative -> is_vehicle (rs_feature r) = false ->
  random_data r = None.
Proof. exact random_relative_dead. Qed.

(** For vehicles the count byte is missing from the record. *)
Theorem C12_relative_vehicle_refuted : exists r r' b, random_init r = Some r /\ random_init r' = Some r' /\
  rs_count r <> rs_count r' /\ random_data r = Some b /\ random_data r' = Some b.
Proof.
  exists (mkRand 0 3 RRelative (Some 1) 2 true 4 [RRef 7]), (mkRand 0 3 RRelative (Some 2) 2 true 4 [RRef 7]).
  eexists. split; [reflexivity|]. split; [reflexivity|]. split; [discriminate|].
  split; vm_compute; reflexivity.
Qed.

Example C12_example : random_ok (mkRand 0 3 RParent None 2 true 4 [RRef 7; RInt 9])
  /\ random_data (mkRand 0 3 RParent None 2 true 4 [RRef 7; RInt 9]) = Some [2; 0; 3; 131; 130; 4; 2; 7; 0; 9; 128].
Proof. split; [repeat split; cbn; try lia; discriminate|reflexivity]. Qed.

(** ** C52: production callbacks.  Reading follows the format; writing never
    produces it. *)
Theorem C52_production_decode : forall vinvs ref p b, production_bytes ref p b ->
  exists d, b = 2 :: d /\ decode_action2 vinvs d = Some (A2Production p).
Proof. exact production_decode. Qed.

Theorem C52_production_encode_refuted : forall as_lists p b ref, production_data as_lists p = Some b -> ~ production_bytes ref p b.
Proof.
  intros as_lists p b ref H P. apply production_wrong in H as [d ->]. inversion P.
Qed.

Example C52_example : exists b, production_bytes 3 (mkProd 2 [[1; 2]; [3; 4]] [[5; 6]] 7) b
  /\ b = [2; 10; 3; 2; 2; 1; 2; 3; 4; 1; 5; 6; 7]
  /\ production_data true (mkProd 2 [[1; 2]; [3; 4]] [[5; 6]] 7) = Some [10; 2; 2; 1; 2; 3; 4; 1; 5; 6; 7].
Proof.
  eexists. split; [|split; [|vm_compute; reflexivity]].
  - apply pb2; repeat constructor.
  - reflexivity.
Qed.

Print Assumptions C08_generic_roundtrip.
Print Assumptions C08_generic_encodable.
Print Assumptions C08_collision_refuted.
Print Assumptions C09_advanced_roundtrip_partial.
Print Assumptions C09_advanced_encodable.
Print Assumptions C09_advanced_recompile.
Print Assumptions C09_basic_decode_partial.
Print Assumptions C09_basic_recompile_refuted.
Print Assumptions C12_random_roundtrip_partial.
Print Assumptions C12_random_encodable.
Print Assumptions C12_relative_refuted.
Print Assumptions C52_production_decode.
Print Assumptions C52_production_encode_refuted.
