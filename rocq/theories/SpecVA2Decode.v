(** Specification for C11: which VarAction2 records decode to code with the
    same meaning. *)
From Coq Require Import ZArith List Bool.
From Verif Require Import Base RecordsModel Action14Model VA2Model VA2DecodeModel SpecVA2.
Import ListNotations.
Open Scope Z_scope.

(** A name stands for exactly the field (and parameter) the instruction reads. *)
Definition names_field (tab : name -> option vdata) (x : name) (j : adjust) : Prop :=
  exists d, tab x = Some d /\ vd_var d = j_var j /\ vd_start d = j_shift j /\ 0 <= vd_size d /\
    2 ^ vd_size d - 1 = j_mask j /\ vd_param d = (if has_param (j_var j) then Some (j_param j) else None).

(** An instruction the decoder treats faithfully: no add/divide modifier, a
    defined operator, 7B only together with operator 0F and a plain variable,
    names (if any) exact. *)
Record instr_ok (tab : name -> option vdata) (vinv : inv_table) (j : adjust) : Prop := {
  io_type : j_type j = 0;
  io_op : 0 <= j_op j <= 22;
  io_7b : j_var j = 123 -> j_op j = 15 /\ ~ In (j_param j) [26; 123; 126] /\
    vinv (j_param j) (j_shift j) (j_mask j) = None;
  io_name : forall x, j_var j <> 123 -> vinv (j_var j) (j_shift j) (j_mask j) = Some x -> names_field tab x j }.

(** [lone]: the running result was just set to a plain constant (a constant
    parameter needs no 7B). *)
Definition const_load (j : adjust) : bool := (j_var j =? 26) && (j_shift j =? 0).
Fixpoint clean_rest (tab : name -> option vdata) (vinv : inv_table) (lone : bool) (l : list adjust) : Prop :=
  match l with
  | [] => True
  | j :: l => instr_ok tab vinv j /\ (j_var j = 123 -> lone = false) /\
      clean_rest tab vinv ((j_op j =? 15) && const_load j) l
  end.
Definition clean (tab : name -> option vdata) (vinv : inv_table) (l : list adjust) : Prop :=
  match l with
  | [] => False
  | j :: l => instr_ok tab vinv j /\ j_var j <> 123 /\ clean_rest tab vinv (const_load j) l
  end.

(** The machine state as a user state without named variables. *)
Definition user_of {A} (m : mst A) : ust A := mkU (tmp m) (prm m) [] (aux m).
