(** The encoders write the NewGRF layout of each record (C07, C08, C12-C18,
    C20, C50, C51): together with the round trips of PropsRecords this fixes
    both sides of the format. *)
From Coq Require Import ZArith List Bool.
From Verif Require Import Base CommonModel RecordsModel SpecRecords Action2Model SpecAction2 SpecLayout LayoutProofs.
Import ListNotations.
Open Scope Z_scope.

Theorem C07_layout : forall a b, action1_data a = Some b -> b = lay1 a.
Proof. exact action1_lay. Qed.
Example C07_layout_case : action1_data (mkA1 7 2 260 None) = Some [1; 7; 2; 255; 4; 1].
Proof. reflexivity. Qed.

Theorem C08_layout : forall g b, generic_data g = Some b -> b = layGeneric g.
Proof. exact generic_lay. Qed.
Example C08_layout_case : generic_data (mkGen2 0 5 [1; 2] [300]) = Some [2; 0; 5; 2; 1; 1; 0; 2; 0; 44; 1].
Proof. reflexivity. Qed.

Theorem C12_layout_partial : forall r b, random_data r = Some b -> random_ok r -> b = layRandom r.
Proof. exact random_lay. Qed.
Example C12_layout_case : random_data (mkRand 0 5 RParent None 3 true 1 [RInt 4; RRef 2]) = Some [2; 0; 5; 131; 131; 1; 2; 4; 128; 2; 0].
Proof. reflexivity. Qed.

Theorem C13_layout_partial : forall a b, action3_data a = Some b -> a3_ids a <> [] -> a3_wagon_override a = false -> b = lay3 a.
Proof. exact action3_lay. Qed.
Example C13_layout_case : action3_data (mkA3 0 [1; 300] [(255, RInt 7)] (RAct 9) false) =
  Some [3; 0; 2; 255; 1; 0; 255; 44; 1; 1; 255; 7; 128; 9; 0].
Proof. reflexivity. Qed.

Theorem C14_layout : forall a b, action4_data a = Some b -> a4_ok a -> b = lay4 a.
Proof. exact action4_lay. Qed.
Example C14_layout_case : action4_data (mkA4 3 127 255 false [[65]; []]) = Some [4; 3; 127; 2; 255; 255; 0; 65; 0; 0].
Proof. reflexivity. Qed.

Theorem C15_layout : (forall a b, action5_data a = Some b -> 0 <= a5_type a < 128 -> b = lay5 a) /\
  (forall s b, actionA_data s = Some b -> b = layA s).
Proof. exact (conj action5_lay actionA_lay). Qed.
Example C15_layout_case : action5_data (mkA5 4 1 (Some 2)) = Some [5; 132; 255; 1; 0; 255; 2; 0] /\
  actionA_data [(1000, 3)] = Some [10; 1; 3; 232; 3].
Proof. split; reflexivity. Qed.
(** More than 255 sets are refused. *)
Theorem C15_actionA_limit : forall s, 255 < Z.of_nat (length s) -> actionA_data s = None.
Proof. intros s H. unfold actionA_data. unfold len. apply Z.leb_gt in H. now rewrite H. Qed.

Theorem C16_layout : forall ps b, action6_data ps = Some b -> b = lay6 ps.
Proof. exact action6_lay. Qed.
Example C16_layout_case : action6_data [(1, 2, 3)] = Some [6; 1; 2; 255; 3; 0; 255].
Proof. reflexivity. Qed.

Theorem C17_layout : forall a b, action7_data a = Some b -> action7_ctor a = true -> b = lay7 a (a7_size a).
Proof. exact action7_lay. Qed.
Example C17_layout_case : action7_data (mkA7 true 136 (Some 4) 7 (IVInt 258) 9) = Some [9; 136; 4; 7; 2; 1; 0; 0; 9].
Proof. reflexivity. Qed.

Theorem C18_layout : forall a b, actionD_data a = Some b -> ad_ok a ->
  exists v, (match ad_value a with DVRaw r => v = r | DVNum n => v = w32 n | DVNone => ad_src1 a <> 255 /\ ad_src2 a <> 255 end) /\ b = layD a v.
Proof. exact actionD_lay. Qed.
Example C18_layout_case : actionD_data (mkAD 1 2 true 255 3 (DVNum 256)) = Some [13; 1; 130; 255; 3; 0; 1; 0; 0].
Proof. reflexivity. Qed.

Theorem C20_layout : (forall a b, action8_data a = Some b -> b = lay8 a) /\
  (forall a b, action10_data a = Some b -> b = lay10 a) /\ (forall n b, action11_data n = Some b -> b = lay11 n) /\
  (forall a b, actionFE_data a = Some b -> b = layFE a).
Proof. exact (conj action8_lay (conj (proj1 small_lay) (conj (proj1 (proj2 small_lay)) (proj1 (proj2 (proj2 small_lay)))))). Qed.
Example C20_layout_case : actionFE_data (mkAFE [65; 66; 67; 68] 2) = Some [254; 0; 65; 66; 67; 68; 2; 0].
Proof. reflexivity. Qed.

(** An error message with its own text is laid out as the game reads it; a
    built-in message never is (a stray zero byte follows the message id). *)
Theorem C50_layout_partial : forall a t b, actionB_data a = Some b -> ab_message a = MText t -> b = layB a.
Proof. exact actionB_lay. Qed.
Theorem C50_builtin_refuted : forall a n b, actionB_data a = Some b -> ab_message a = MBuiltin n -> b <> layB a.
Proof. exact actionB_lay_builtin. Qed.
Example C50_layout_case : actionB_data (mkAB 3 127 (MText [72; 105]) None [7]) = Some [11; 3; 127; 255; 72; 105; 0; 0; 7]
  /\ actionB_data (mkAB 3 127 (MBuiltin 2) (Some [65]) []) = Some [11; 3; 127; 2; 0; 65; 0].
Proof. split; reflexivity. Qed.

Theorem C51_layout : forall l b, action12_data l = Some b -> b = lay12 l.
Proof. exact (proj2 (proj2 (proj2 small_lay))). Qed.
Example C51_layout_case : action12_data [(0, 1, 300)] = Some [18; 1; 0; 1; 44; 1].
Proof. reflexivity. Qed.

(** C09: the bytes of an advanced layout whose registers the writer emits. *)
Theorem C09_layout_partial : forall l b, Forall (fun s => incl (map fst (ls_regs s)) plain_keys) (ly_ground l :: ly_buildings l) ->
  advanced_data l = Some b -> b = layAdvanced l.
Proof. exact advanced_lay. Qed.
(** The flag word, for every combination of keys. *)
Theorem C09_flag_word : forall s, sprite_flags s = layFlags s.
Proof. exact flags_layout. Qed.
Example C09_layout_case :
  advanced_data (mkLay 15 3 (mkLS (mkSR 1420 0 false false false true) None None None [(KDodraw, SInt 9)])
     [mkLS (mkSR 5 0 false false false true) (Some [-2; 4; 8]) None None [(KAdd, STemp 6)]])
  = Some [2; 15; 3; 65; 140; 5; 0; 192; 1; 0; 9; 5; 0; 0; 192; 2; 0; 254; 4; 8; 0; 0; 0; 6]
  /\ layFlags (mkLS (mkSR 5 0 false false false true) None None None [(KDeltaChildX, SInt 1); (KDeltaParentZ, SInt 4)]) = 16.
Proof. split; vm_compute; reflexivity. Qed.

Print Assumptions C07_layout.
Print Assumptions C08_layout.
Print Assumptions C12_layout_partial.
Print Assumptions C13_layout_partial.
Print Assumptions C14_layout.
Print Assumptions C15_layout.
Print Assumptions C15_actionA_limit.
Print Assumptions C16_layout.
Print Assumptions C17_layout.
Print Assumptions C18_layout.
Print Assumptions C20_layout.
Print Assumptions C50_layout_partial.
Print Assumptions C50_builtin_refuted.
Print Assumptions C51_layout.
Print Assumptions C09_layout_partial.
Print Assumptions C09_flag_word.
