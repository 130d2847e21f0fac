(** Proofs for DecodeModel: decompression and chunked rows. *)
From Coq Require Import ZArith List Bool Lia.
From Verif Require Import Base BaseFacts DecodeModel SpecDecode.
Import ListNotations.
Open Scope Z_scope.

(** ---- decompression ---- *)

Lemma firstn_S_nth : forall {A} (d : A) k l, (k < length l)%nat ->
  firstn (S k) l = firstn k l ++ [nth k l d].
Proof.
  intros A d; induction k; intros [|x l] H; cbn [length] in H; try lia; cbn; [reflexivity|].
  f_equal. apply (IHk l). lia.
Qed.

Lemma nth_skipn' : forall {A} (d : A) k i l, nth i (skipn k l) d = nth (k + i) l d.
Proof.
  intros A d; induction k; intros i l; [reflexivity|].
  destruct l as [|x l]; cbn [skipn Nat.add nth]; [destruct i; reflexivity|]. apply IHk.
Qed.

Lemma copy_bytes_gen : forall off out n k, (off <= length out)%nat -> (k + n <= off)%nat ->
  copy_bytes off n (out ++ firstn k (skipn (length out - off) out))
  = out ++ firstn (k + n) (skipn (length out - off) out).
Proof.
  intros off out n; induction n; intros k Ho Hk.
  - cbn. rewrite Nat.add_0_r. reflexivity.
  - cbn [copy_bytes].
    assert (Hl : length (skipn (length out - off) out) = off) by (rewrite skipn_length; lia).
    assert (Hf : length (firstn k (skipn (length out - off) out)) = k)
      by (rewrite firstn_length; lia).
    rewrite app_length, Hf.
    rewrite (app_nth1 out) by lia.
    replace (length out + k - off)%nat with ((length out - off) + k)%nat by lia.
    rewrite <- nth_skipn'. rewrite <- app_assoc.
    rewrite <- (firstn_S_nth 0) by lia.
    rewrite IHn by lia. f_equal. f_equal. lia.
Qed.

Lemma copy_bytes_no_overlap : forall off n out, (n <= off)%nat -> (off <= length out)%nat ->
  copy_bytes off n out = out ++ firstn n (skipn (length out - off) out).
Proof.
  intros off n out H1 H2. pose proof (copy_bytes_gen off out n 0 H2 ltac:(lia)) as E.
  cbn [firstn] in E. rewrite app_nil_r in E. exact E.
Qed.

Lemma copy_bytes_length : forall off n out, length (copy_bytes off n out) = (length out + n)%nat.
Proof. intros off; induction n; intros out; cbn; [lia|]. rewrite IHn, app_length. cbn. lia. Qed.

Lemma block_out_length : forall b out, block_valid (length out) b ->
  length (block_out out b) = (length out + Z.to_nat (block_size b))%nat.
Proof.
  intros [l|off n] out H; cbn in *.
  - rewrite app_length. lia.
  - apply copy_bytes_length.
Qed.

Lemma py_slice_back : forall (l : list Z) off n, 1 <= n -> n < off -> off <= len l ->
  py_slice l (- off) (n - off)
  = firstn (Z.to_nat n) (skipn (length l - Z.to_nat off) l).
Proof.
  intros l off n H1 H2 H3. unfold py_slice, py_index.
  assert (- off <? 0 = true) as -> by lia. assert (n - off <? 0 = true) as -> by lia.
  unfold len in *. cbn zeta. f_equal; [|f_equal]; lia.
Qed.

Lemma py_slice_from_back : forall (l : list Z) n, 1 <= n -> n <= len l ->
  py_slice_from l (- n) = firstn (Z.to_nat n) (skipn (length l - Z.to_nat n) l).
Proof.
  intros l n H1 H2. unfold py_slice_from, py_index.
  assert (- n <? 0 = true) as -> by lia. unfold len in *.
  replace (Z.to_nat (Z.max 0 (- n + Z.of_nat (length l)))) with (length l - Z.to_nat n)%nat by lia.
  rewrite firstn_all2; [reflexivity|]. rewrite skipn_length. lia.
Qed.

Lemma code_of_copy : forall off n, 1 <= n <= 16 -> 0 <= off <= 2047 ->
  let b := 256 - 8 * n + off / 256 in
  128 <= b < 256 /\ Z.lor (Z.shiftl (Z.land (b - 256) 7) 8) (off mod 256) = off
  /\ - Z.shiftr (b - 256) 3 = n.
Proof.
  intros off n Hn Ho. cbn zeta. split; [|split].
  - lia.
  - change 7 with (Z.ones 3). rewrite Z.land_ones by lia. change (2 ^ 3) with 8.
    replace ((256 - 8 * n + off / 256 - 256) mod 8) with (off / 256) by lia.
    rewrite Z.lor_comm. rewrite lor_shift by lia. change (2 ^ 8) with 256. lia.
  - rewrite Z.shiftr_div_pow2 by lia. change (2 ^ 3) with 8. lia.
Qed.

Definition total (bs : list block) : Z := fold_right (fun b a => block_size b + a) 0 bs.

Lemma decode_step_lit : forall fuel num data l rest, 1 <= len l <= 128 -> len l <= num ->
  decode_loop (S fuel) num data (block_code (Lit l) ++ rest)
  = decode_loop fuel (num - len l) (data ++ l) rest.
Proof.
  intros fuel num data l rest Hl Hn. cbn [block_code app].
  cbn [decode_loop]. assert (0 <? num = true) as -> by lia. cbn [negb].
  cbn [rd_B bind]. fold (len l).
  assert (E : (if len l =? 128 then 0 else len l) <? 128 = true) by (destruct (len l =? 128) eqn:Q; lia).
  assert (128 <=? (if len l =? 128 then 0 else len l) = false) as -> by lia.
  assert (0 <=? (if len l =? 128 then 0 else len l) = true) as -> by (destruct (len l =? 128); lia).
  assert ((if (if len l =? 128 then 0 else len l) =? 0 then 128 else (if len l =? 128 then 0 else len l)) = len l) as ->.
  { destruct (len l =? 128) eqn:Q; cbn. lia. destruct (len l =? 0) eqn:W; lia. }
  assert (num - len l <? 0 = false) as -> by lia.
  rewrite len_nat, slice_app. reflexivity.
Qed.

Lemma decode_step_copy : forall fuel num data off n rest,
  1 <= n <= 16 -> 1 <= off <= 2047 -> off <= len data -> n <= off -> n <= num ->
  decode_loop (S fuel) num data (block_code (Copy off n) ++ rest)
  = decode_loop fuel (num - n) (copy_bytes (Z.to_nat off) (Z.to_nat n) data) rest.
Proof.
  intros fuel num data off n rest Hn Ho Hl Hv Hnum.
  destruct (code_of_copy off n Hn ltac:(lia)) as (B & E1 & E2). cbn zeta in *.
  cbn [block_code app]. cbn [decode_loop]. assert (0 <? num = true) as -> by lia. cbn [negb].
  cbn [rd_B bind].
  set (b := 256 - 8 * n + off / 256) in *.
  assert (128 <=? b = true) as -> by lia. assert (0 <=? b - 256 = false) as -> by lia.
  rewrite E1, E2.
  assert (num - n <? 0 = false) as -> by lia.
  rewrite copy_bytes_no_overlap by (unfold len in *; lia).
  destruct (n =? off) eqn:Q.
  - apply Z.eqb_eq in Q. subst off. rewrite py_slice_from_back by lia. reflexivity.
  - apply Z.eqb_neq in Q. rewrite py_slice_back by lia. reflexivity.
Qed.

Lemma block_size_pos : forall k b, block_valid k b -> 1 <= block_size b.
Proof. intros k [l|off n] H; cbn in *; lia. Qed.

Lemma total_nonneg : forall bs k, blocks_valid k bs -> 0 <= total bs.
Proof.
  induction bs as [|b bs IH]; intros k H; cbn [total fold_right]; [lia|]. destruct H as [H1 H2].
  apply IH in H2. apply block_size_pos in H1. fold (total bs). lia.
Qed.

Lemma decode_loop_stream : forall bs data rest fuel,
  blocks_valid (length data) bs -> Forall (fun b => ~ self_overlapping b) bs ->
  (length (stream bs ++ rest) < fuel)%nat ->
  decode_loop fuel (total bs) data (stream bs ++ rest)
  = Some (fold_left block_out bs data, rest).
Proof.
  induction bs as [|b bs IH]; intros data rest fuel V NO F; (destruct fuel as [|fuel]; [lia|]).
  - reflexivity.
  - destruct V as [V1 V2]. inversion_clear NO as [|? ? N1 N2].
    pose proof (total_nonneg _ _ V2) as T.
    assert (E : stream (b :: bs) ++ rest = block_code b ++ (stream bs ++ rest))
      by (unfold stream; cbn [map concat]; rewrite <- app_assoc; reflexivity).
    rewrite E in *. rewrite <- (block_out_length b data V1) in V2.
    cbn [fold_left].
    assert (F' : (length (stream bs ++ rest) < fuel)%nat).
    { revert F. rewrite (app_length (block_code b)). destruct b; cbn [block_code length]; lia. }
    destruct b as [l|off n]; cbn [total fold_right block_size] in *; cbn [block_valid] in V1.
    + fold (total bs) in *. fold (len l) in *.
      rewrite decode_step_lit by lia.
      replace (len l + total bs - len l) with (total bs) by lia.
      exact (IH _ _ _ V2 N2 F').
    + fold (total bs) in *. cbn [self_overlapping] in N1. fold (len data) in *.
      rewrite decode_step_copy by lia.
      replace (n + total bs - n) with (total bs) by lia.
      exact (IH _ _ _ V2 N2 F').
Qed.

Lemma expand_len : forall bs data, blocks_valid (length data) bs ->
  len (fold_left block_out bs data) = len data + total bs.
Proof.
  induction bs as [|b bs IH]; intros data V; cbn [fold_left total fold_right]; [lia|].
  destruct V as [V1 V2]. pose proof (block_out_length b data V1) as L.
  rewrite <- L in V2. rewrite (IH _ V2). fold (total bs). unfold len in *.
  pose proof (block_size_pos _ _ V1). lia.
Qed.

Theorem decode_data_stream : forall bs rest,
  blocks_valid 0 bs -> Forall (fun b => ~ self_overlapping b) bs ->
  decode_data (len (expand bs)) (stream bs ++ rest) = Some (expand bs, rest).
Proof.
  intros bs rest V NO. unfold decode_data, expand.
  rewrite (expand_len bs []) by exact V. change (len (@nil Z)) with 0. rewrite Z.add_0_l.
  apply (decode_loop_stream bs []); [exact V|exact NO|lia].
Qed.

(** The fuel never runs out: more fuel gives the same answer. *)
Lemma decode_loop_fuel : forall fuel fuel' num data f,
  (length f < fuel)%nat -> (length f < fuel')%nat ->
  decode_loop fuel num data f = decode_loop fuel' num data f.
Proof.
  induction fuel as [|fuel IH]; intros fuel' num data f H H'; [lia|].
  destruct fuel' as [|fuel']; [lia|]. cbn [decode_loop].
  destruct (negb (0 <? num)); [reflexivity|].
  destruct f as [|b f]; cbn [rd_B bind]; [reflexivity|]. cbn [length] in *.
  destruct (0 <=? (if 128 <=? b then b - 256 else b)).
  - match goal with |- context [if ?c then None else _] => destruct c end; [reflexivity|].
    unfold slice. apply IH; rewrite skipn_length; lia.
  - destruct f as [|b2 f]; cbn [rd_B bind]; [reflexivity|]. cbn [length] in *.
    match goal with |- context [if ?c then None else _] => destruct c end; [reflexivity|].
    match goal with |- context [if ?c then _ else _] => destruct c end; apply IH; lia.
Qed.

(** ---- soundness: what a successful decoding of a plain sprite means ---- *)

(** A two-byte copy code with distance zero. *)
Definition zero_copy (bs : list block) : Prop := exists n, In (Copy 0 n) bs.

Lemma lenapp : forall (a b : list Z), len (a ++ b) = len a + len b.
Proof. intros a b. unfold len. rewrite app_length. lia. Qed.

Lemma py_slice_len : forall (l : list Z) i j, len (py_slice l i j) <= Z.max 0 (py_index (len l) j - py_index (len l) i).
Proof. intros l i j. unfold py_slice, len. rewrite firstn_length. lia. Qed.

Lemma copy_code : forall b b2, 128 <= b < 256 -> 0 <= b2 < 256 ->
  let off := Z.lor (Z.shiftl (Z.land (b - 256) 7) 8) b2 in
  let n := - Z.shiftr (b - 256) 3 in
  1 <= n <= 16 /\ 0 <= off <= 2047 /\ [b; b2] = block_code (Copy off n).
Proof.
  intros b b2 Hb Hb2. cbn zeta.
  assert (E1 : Z.lor (Z.shiftl (Z.land (b - 256) 7) 8) b2 = b mod 8 * 256 + b2).
  { change 7 with (Z.ones 3). rewrite Z.land_ones by lia. change (2 ^ 3) with 8.
    rewrite Z.lor_comm, lor_shift by lia. change (2 ^ 8) with 256. lia. }
  assert (E2 : - Z.shiftr (b - 256) 3 = 32 - b / 8).
  { rewrite Z.shiftr_div_pow2 by lia. change (2 ^ 3) with 8. lia. }
  rewrite E1, E2. split; [lia|]. split; [lia|]. cbn [block_code]. f_equal; [lia|]. f_equal. lia.
Qed.

Lemma py_slice_overlap_short : forall (l : list Z) off n, 1 <= n <= 16 -> 1 <= off ->
  n <> off -> (off < n \/ len l < off) -> len (py_slice l (- off) (n - off)) < n.
Proof.
  intros l off n Hn Ho Hne H. pose proof (py_slice_len l (- off) (n - off)) as B.
  pose proof (len_nonneg l). revert B. unfold py_index.
  assert (- off <? 0 = true) as -> by lia.
  destruct (n - off <? 0) eqn:Q; intros B; [apply Z.ltb_lt in Q|apply Z.ltb_ge in Q]; lia.
Qed.

Lemma decode_loop_le : forall fuel num data f out rest,
  decode_loop fuel num data f = Some (out, rest) -> bytesb f = true ->
  0 <= num -> len out <= len data + num.
Proof.
  induction fuel as [|fuel IH]; intros num data f out rest E Bf N; [discriminate|].
  cbn [decode_loop] in E. destruct (negb (0 <? num)) eqn:Q.
  - destruct (num =? 0); [|discriminate]. injection E as <- <-. lia.
  - destruct f as [|b f]; [discriminate|]. cbn [rd_B bind] in E.
    cbn in Bf. apply andb_true_iff in Bf as [Bb Bf]. unfold byteb in Bb.
    destruct (0 <=? (if 128 <=? b then b - 256 else b)) eqn:C.
    + destruct (128 <=? b) eqn:B1; [lia|].
      assert (Sz : 1 <= (if b =? 0 then 128 else b)) by (destruct (b =? 0) eqn:B2; lia).
      set (sz := if b =? 0 then 128 else b) in *.
      destruct (num - sz <? 0) eqn:D; [discriminate|].
      unfold slice in E.
      apply IH in E; [| |lia].
      * revert E. unfold len. rewrite app_length, firstn_length. lia.
      * rewrite <- (firstn_skipn (Z.to_nat sz) f) in Bf.
        rewrite bytesb_app in Bf. apply andb_true_iff in Bf. tauto.
    + destruct (128 <=? b) eqn:B1; [|lia].
      destruct f as [|b2 f]; [discriminate|]. cbn [rd_B bind] in E.
      cbn in Bf. apply andb_true_iff in Bf as [Bb2 Bf]. unfold byteb in Bb2.
      match goal with E : (if ?c then None else _) = _ |- _ => destruct c eqn:D; [discriminate|] end.
      destruct (copy_code b b2 ltac:(lia) ltac:(lia)) as (Hn & Ho & _). cbn zeta in *.
      set (off := Z.lor (Z.shiftl (Z.land (b - 256) 7) 8) b2) in *.
      set (n := - Z.shiftr (b - 256) 3) in *.
      destruct (n =? off) eqn:NO.
      * apply IH in E; [|assumption|lia]. revert E. unfold len. rewrite app_length.
        unfold py_slice_from, py_index. assert (- n <? 0 = true) as -> by lia. rewrite skipn_length.
        unfold len. lia.
      * apply IH in E; [|assumption|lia].
        pose proof (py_slice_len data (- off) (n - off)) as L.
        assert (py_index (len data) (n - off) - py_index (len data) (- off) <= n).
        { unfold py_index. pose proof (len_nonneg data).
          destruct (n - off <? 0) eqn:A1; destruct (- off <? 0) eqn:A2; lia. }
        rewrite lenapp in E. lia.
Qed.

Lemma stream_cons : forall b bs, stream (b :: bs) = block_code b ++ stream bs.
Proof. reflexivity. Qed.

Definition block_shape (b : block) : Prop :=
  match b with
  | Lit l => 1 <= Z.of_nat (length l) <= 128
  | Copy off n => 1 <= n <= 16 /\ 0 <= off <= 2047
  end.

(** If exactly the announced number of bytes came out and no distance-zero
    copy was met, the input began with a valid stream without self-overlap,
    and the output is its expansion. *)
Lemma decode_loop_sound : forall fuel num data f out rest,
  decode_loop fuel num data f = Some (out, rest) -> bytesb f = true -> 0 <= num ->
  len out = len data + num ->
  exists bs, f = stream bs ++ rest /\ Forall block_shape bs /\ total bs = num
    /\ (zero_copy bs \/
        (blocks_valid (length data) bs /\ Forall (fun b => ~ self_overlapping b) bs
         /\ out = fold_left block_out bs data)).
Proof.
  induction fuel as [|fuel IH]; intros num data f out rest E Bf N L; [discriminate|].
  cbn [decode_loop] in E. destruct (negb (0 <? num)) eqn:Q.
  - destruct (num =? 0) eqn:Q0; [|discriminate]. injection E as <- <-.
    exists []. split; [reflexivity|]. split; [constructor|]. split; [change (total []) with 0; lia|]. right. split; [exact I|]. split; [constructor|reflexivity].
  - destruct f as [|b f]; [discriminate|]. cbn [rd_B bind] in E.
    cbn in Bf. apply andb_true_iff in Bf as [Bb Bf]. unfold byteb in Bb.
    destruct (0 <=? (if 128 <=? b then b - 256 else b)) eqn:C.
    + destruct (128 <=? b) eqn:B1; [lia|].
      assert (Sz : 1 <= (if b =? 0 then 128 else b) <= 128) by (destruct (b =? 0) eqn:B2; lia).
      assert (Bc : b = if (if b =? 0 then 128 else b) =? 128 then 0 else (if b =? 0 then 128 else b)).
      { destruct (b =? 0) eqn:B2; [apply Z.eqb_eq in B2; exact B2|]. destruct (b =? 128) eqn:B3; lia. }
      set (sz := if b =? 0 then 128 else b) in *.
      destruct (num - sz <? 0) eqn:D; [discriminate|].
      unfold slice in E.
      assert (Bs : bytesb (skipn (Z.to_nat sz) f) = true).
      { rewrite <- (firstn_skipn (Z.to_nat sz) f) in Bf.
        rewrite bytesb_app in Bf. apply andb_true_iff in Bf. tauto. }
      pose proof (decode_loop_le _ _ _ _ _ _ E Bs ltac:(lia)) as Le.
      assert (Lf : len (firstn (Z.to_nat sz) f) = sz).
      { revert Le. unfold len in *. rewrite app_length, firstn_length. lia. }
      destruct (IH _ _ _ _ _ E Bs ltac:(lia)) as (bs & Ef & Hs & Ht & R).
      { unfold len in *. rewrite app_length. lia. }
      exists (Lit (firstn (Z.to_nat sz) f) :: bs). split.
      * rewrite stream_cons. cbn [block_code]. fold (len (firstn (Z.to_nat sz) f)). rewrite Lf.
        rewrite <- Bc. cbn [app]. f_equal. rewrite <- app_assoc, <- Ef. symmetry. apply firstn_skipn.
      * split; [constructor; [|exact Hs]; cbn [block_shape]; fold (len (firstn (Z.to_nat sz) f)); lia|].
        split; [cbn [total fold_right block_size]; fold (total bs); fold (len (firstn (Z.to_nat sz) f)); lia|].
        destruct R as [[n R]|(R1 & R2 & R3)]; [left; exists n; right; exact R|right].
        cbn [blocks_valid block_valid block_size fold_left block_out].
        fold (len (firstn (Z.to_nat sz) f)). split; [split|split].
        -- rewrite Lf. exact Sz.
        -- rewrite app_length in R1. rewrite len_nat. exact R1.
        -- constructor; [intros []|exact R2].
        -- exact R3.
    + destruct (128 <=? b) eqn:B1; [|lia].
      destruct f as [|b2 f]; [discriminate|]. cbn [rd_B bind] in E.
      cbn in Bf. apply andb_true_iff in Bf as [Bb2 Bf]. unfold byteb in Bb2.
      destruct (num - - Z.shiftr (b - 256) 3 <? 0) eqn:D; [discriminate|].
      destruct (copy_code b b2 ltac:(lia) ltac:(lia)) as (Hn & Ho & Ec). cbn zeta in *.
      set (off := Z.lor (Z.shiftl (Z.land (b - 256) 7) 8) b2) in *.
      set (n := - Z.shiftr (b - 256) 3) in *.
      assert (Main : forall piece, decode_loop fuel (num - n) (data ++ piece) f = Some (out, rest) ->
        len piece <= n ->
        (off <> 0 -> len piece = n -> n <= off <= len data
           /\ copy_bytes (Z.to_nat off) (Z.to_nat n) data = data ++ piece) ->
        exists bs, b :: b2 :: f = stream bs ++ rest /\ Forall block_shape bs /\ total bs = num
          /\ (zero_copy bs \/
              (blocks_valid (length data) bs /\ Forall (fun b => ~ self_overlapping b) bs
               /\ out = fold_left block_out bs data))).
      { intros piece E' Lp K.
        pose proof (decode_loop_le _ _ _ _ _ _ E' Bf ltac:(lia)) as Le.
        assert (Lp' : len piece = n).
        { rewrite lenapp in Le. lia. }
        destruct (IH _ _ _ _ _ E' Bf ltac:(lia)) as (bs & Ef & Hs & Ht & R).
        { rewrite lenapp. lia. }
        exists (Copy off n :: bs). split.
        - rewrite stream_cons, <- Ec. cbn [app]. rewrite <- Ef. reflexivity.
        - split; [constructor; [|exact Hs]; cbn [block_shape]; lia|].
          split; [cbn [total fold_right block_size]; fold (total bs); lia|].
          destruct (Z.eq_dec off 0) as [Z0|Z0]; [left; exists n; left; rewrite Z0; reflexivity|].
          destruct (K Z0 Lp') as (K1 & K2).
          destruct R as [[m R]|(R1 & R2 & R3)]; [left; exists m; right; exact R|right].
          cbn [blocks_valid block_valid block_size fold_left block_out]. rewrite K2.
          split; [split|split].
          + unfold len in K1. lia.
          + rewrite app_length in R1. replace (Z.to_nat n) with (length piece) by (unfold len in Lp'; lia).
            exact R1.
          + constructor; [cbn [self_overlapping]; lia|exact R2].
          + exact R3. }
      destruct (n =? off) eqn:NO.
      * apply Z.eqb_eq in NO. apply (Main _ E).
        -- unfold py_slice_from, py_index, len. assert (- n <? 0 = true) as -> by lia.
           rewrite skipn_length. lia.
        -- intros _ K. assert (n <= len data).
           { revert K. unfold py_slice_from, py_index, len. assert (- n <? 0 = true) as -> by lia.
             rewrite skipn_length. lia. }
           split; [lia|]. rewrite py_slice_from_back by lia.
           rewrite copy_bytes_no_overlap by (unfold len in *; lia). rewrite NO. reflexivity.
      * apply Z.eqb_neq in NO. apply (Main _ E).
        -- pose proof (py_slice_len data (- off) (n - off)) as Lx.
           assert (py_index (len data) (n - off) - py_index (len data) (- off) <= n).
           { unfold py_index. pose proof (len_nonneg data).
             destruct (n - off <? 0) eqn:A1; destruct (- off <? 0) eqn:A2; lia. }
           lia.
        -- intros Z0 K.
           destruct (Z_lt_dec off n) as [O1|O1].
           { pose proof (py_slice_overlap_short data off n Hn ltac:(lia) NO (or_introl O1)). lia. }
           destruct (Z_lt_dec (len data) off) as [O2|O2].
           { pose proof (py_slice_overlap_short data off n Hn ltac:(lia) NO (or_intror O2)). lia. }
           split; [lia|]. rewrite py_slice_back by lia.
           rewrite copy_bytes_no_overlap by (unfold len in *; lia). reflexivity.
Qed.

(** Streams can be read in only one way. *)
Lemma block_code_inj : forall b b' r r', block_shape b -> block_shape b' ->
  block_code b ++ r = block_code b' ++ r' -> b = b' /\ r = r'.
Proof.
  intros [l|off n] [l'|off' n'] r r' Hb Hb' E; cbn [block_shape block_code] in *; cbn [app] in E.
  - injection E as E1 E2.
    assert (L : length l = length l').
    { destruct (Z.of_nat (length l) =? 128) eqn:Q; destruct (Z.of_nat (length l') =? 128) eqn:Q'; lia. }
    assert (El : l = l').
    { apply (f_equal (firstn (length l))) in E2. rewrite firstn_app, firstn_all, Nat.sub_diag in E2.
      rewrite L in E2. rewrite firstn_app, firstn_all, Nat.sub_diag in E2. cbn [firstn] in E2.
      rewrite !app_nil_r in E2. exact E2. }
    subst l'. apply app_inv_head in E2. split; [reflexivity|exact E2].
  - exfalso. assert (E1 := f_equal (hd 0) E). cbn [hd] in E1.
    destruct (Z.of_nat (length l) =? 128) eqn:Q; lia.
  - exfalso. assert (E1 := f_equal (hd 0) E). cbn [hd] in E1.
    destruct (Z.of_nat (length l') =? 128) eqn:Q; lia.
  - assert (E1 := f_equal (hd 0) E). assert (E2 := f_equal (fun l => hd 0 (tl l)) E).
    assert (E3 := f_equal (fun l => tl (tl l)) E). cbn [hd tl] in E1, E2, E3.
    split; [|exact E3]. f_equal; lia.
Qed.

Lemma shape_size : forall b, block_shape b -> 1 <= block_size b.
Proof. intros [l|off n] H; cbn in *; lia. Qed.
Lemma shape_total : forall bs, Forall block_shape bs -> 0 <= total bs.
Proof.
  induction bs as [|b bs IH]; intros F; cbn [total fold_right]; [lia|]. inversion_clear F as [|? ? F1 F2].
  apply IH in F2. apply shape_size in F1. fold (total bs). lia.
Qed.

Lemma stream_unique : forall bs bs' r r', Forall block_shape bs -> Forall block_shape bs' ->
  total bs = total bs' -> stream bs ++ r = stream bs' ++ r' -> bs = bs' /\ r = r'.
Proof.
  induction bs as [|b bs IH]; intros [|b' bs'] r r' F F' T E.
  - split; [reflexivity|exact E].
  - exfalso. inversion_clear F' as [|? ? F1 F2]. apply shape_total in F2. apply shape_size in F1.
    cbn [total fold_right] in T. fold (total bs') in T. lia.
  - exfalso. inversion_clear F as [|? ? F1 F2]. apply shape_total in F2. apply shape_size in F1.
    cbn [total fold_right] in T. fold (total bs) in T. lia.
  - rewrite !stream_cons, <- !app_assoc in E. inversion_clear F as [|? ? F1 F2]. inversion_clear F' as [|? ? F1' F2'].
    destruct (block_code_inj _ _ _ _ F1 F1' E) as [-> E2].
    destruct (IH bs' r r' F2 F2') as [-> ->]; [|exact E2|split; reflexivity].
    cbn [total fold_right] in T. fold (total bs) in T. fold (total bs') in T. lia.
Qed.

Lemma valid_shape : forall bs k, blocks_valid k bs -> Forall block_shape bs.
Proof.
  induction bs as [|b bs IH]; intros k V; constructor.
  - destruct V as [V _]. destruct b; cbn in *; lia.
  - destruct V as [_ V]. exact (IH _ V).
Qed.
Lemma valid_nonzero : forall bs k n, blocks_valid k bs -> ~ In (Copy 0 n) bs.
Proof.
  induction bs as [|b bs IH]; intros k n V; [intros []|]. destruct V as [V1 V2]. intros [E|E].
  - subst b. cbn in V1. lia.
  - exact (IH _ _ V2 E).
Qed.

(** A valid stream with a self-overlapping copy never yields the announced
    number of bytes. *)
Lemma overlap_short : forall bs rest out rest', blocks_valid 0 bs -> Exists self_overlapping bs ->
  bytesb (stream bs ++ rest) = true ->
  decode_data (len (expand bs)) (stream bs ++ rest) = Some (out, rest') ->
  len out <> len (expand bs).
Proof.
  intros bs rest out rest' V X B E L.
  unfold decode_data in E. unfold expand in *. rewrite (expand_len bs [] V) in E, L.
  change (len (@nil Z)) with 0 in *. rewrite Z.add_0_l in *.
  destruct (decode_loop_sound _ _ _ _ _ _ E B) as (bs' & Es & Hs & Ht & R).
  { exact (total_nonneg _ _ V). }
  { exact L. }
  destruct (stream_unique bs bs' rest rest' (valid_shape _ _ V) Hs (eq_sym Ht) Es) as [<- _].
  destruct R as [[n R]|(_ & R & _)]; [exact (valid_nonzero _ _ _ V R)|].
  rewrite Forall_forall in R. apply Exists_exists in X as (b & I & O). exact (R b I O).
Qed.

Lemma chop_nth : forall {A} n k (l : list A) i, (i < n)%nat ->
  nth_error (chop n k l) i = Some (firstn k (skipn (i * k) l)).
Proof.
  intros A; induction n; intros k l i H; [lia|]. destruct i as [|i]; [reflexivity|].
  cbn [chop nth_error]. rewrite IHn by lia. f_equal. f_equal.
  assert (S2 : forall a b (m : list A), skipn a (skipn b m) = skipn (b + a) m).
  { clear. intros a b; revert a; induction b; intros a m; [reflexivity|].
    destruct m; [destruct a; reflexivity|]. apply IHb. }
  rewrite S2. f_equal.
Qed.
Lemma chop_length : forall {A} n k (l : list A), length (chop n k l) = n.
Proof. intros A; induction n; intros k l; [reflexivity|]. cbn. rewrite IHn. reflexivity. Qed.
