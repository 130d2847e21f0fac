(** Specification vocabulary for the fixed-layout records (C07, C13-C18): which
    records the format can express ([_ok]) and what the reader is expected to
    return for them ([_norm]). *)
From Coq Require Import ZArith List Bool.
From Verif Require Import Base RecordsModel.
Import ListNotations.
Open Scope Z_scope.

Definition a1_ok (a : action1) : Prop :=
  0 <= a1_feature a <= 20 /\
  (a1_first_set a = None -> a1_set_count a <> 0).

Definition a1_norm (a : action1) : action1 :=
  mkA1 (a1_feature a) (a1_set_count a) (a1_sprite_count a)
    (match a1_first_set a with
     | None => if a1_set_count a <=? 255 then None else Some 0
     | x => x end).

Definition a3_ok (a : action3) : Prop :=
  0 <= a3_feature a <= 20 /\ (0 < length (a3_ids a) < 128)%nat /\ NoDup (map fst (a3_maps a)).

Definition a3_norm (a : action3) : action3 :=
  mkA3 (a3_feature a) (a3_ids a)
       (map (fun kv => (fst kv, RRef (get_ref_id (snd kv)))) (a3_maps a))
       (RRef (get_ref_id (a3_default a))) false.

Definition a4_ok (a : action4) : Prop :=
  action4_ctor a = true /\ 0 <= a4_feature a <= 20 /\ 0 <= a4_lang a < 128 /\
  a4_strings a <> [] /\ (forall s, In s (a4_strings a) -> ~ In 0 s).

Definition a7_size (a : action7) : Z :=
  match a7_varsize a, a7_value a with
  | Some n, _ => n
  | None, IVBytes b => len b
  | None, IVInt _ => 0
  end.

Definition a7_number (a : action7) : Z :=
  match a7_value a with IVInt n => n mod 2 ^ (8 * a7_size a) | IVBytes b => le_value b end.

Definition a7_ok (a : action7) : Prop :=
  action7_ctor a = true /\
  (match a7_value a with IVBytes b => a7_size a = len b | IVInt _ => True end) /\
  (a7_cond a < 2 -> a7_size a = 1).

Definition ad_ok (a : actionD) : Prop :=
  0 <= ad_op a <= 12 /\
  (match ad_value a with DVRaw b => length b = 4%nat /\ bytesb b = true | _ => True end).

Definition ad_norm (a : actionD) : actionD :=
  mkAD (ad_target a) (ad_op a) (ad_if_undefined a) (ad_src1 a) (ad_src2 a)
    (if (ad_src1 a =? 255) || (ad_src2 a =? 255) then
       match ad_value a with DVRaw b => DVNum (le_value b) | x => x end
     else DVNone).
