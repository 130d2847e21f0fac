(** C36, C37, C38, C40. *)
From Coq Require Import ZArith List Bool String Permutation Lia.
From Verif Require Import Base BaseFacts RecordsModel PropModel Action0Model SpecContainer SpecProp PropAccept LibModel SpecLib LibProofs OrderProofs.
Import ListNotations.
Open Scope string_scope.
Open Scope list_scope.
Open Scope Z_scope.

(** ** C36 *)
(** The runs have exactly the given pairs, in ascending order of the ids; no run
    is empty or longer than the limit, none is split without need. *)
Theorem C36_combine_ranges : forall (V : Type) chunk (values : list (Z * V)), 1 <= chunk ->
  let r := combine_ranges chunk values in
  Permutation (covered r) values /\ ascending (covered r) /\
  Forall (fun run => 1 <= len (snd run) <= chunk) r /\ well_split chunk r.
Proof.
  intros V chunk values C r. unfold r. split; [rewrite ranges_covered; apply sort_perm|]. split; [rewrite ranges_covered; apply sort_asc|].
  split; [apply ranges_len; exact C|apply ranges_split; exact C].
Qed.
(** Base costs: exactly the given costs are set, each once, in records that can
    be written and are read back as they are. *)
Theorem C36_base_costs : forall costs, NoDup (map fst costs) ->
  (forall id name v, (exists d, In d (base_costs costs) /\ df_feature d = 8 /\ sets d id name v) <-> name = "basecost" /\ In (id, v) costs) /\
  ((forall id v, In (id, v) costs -> 0 <= id <= 65535 /\ exists n, v = VInt n /\ 0 <= n <= 255) ->
   Forall (fun d => exists b, define_codes d d b) (base_costs costs)).
Proof.
  intros costs N. split.
  - intros id name v. unfold base_costs. split.
    + intros (d & I & F & vs & P & Q). apply in_map_iff in I as ([f ws] & <- & I). cbn [df_props df_first fst snd] in P, Q.
      destruct P as [P|[]]. injection P as <- <-. split; [reflexivity|]. apply (ranges_In 255). apply covered_In. exists f, ws. split; assumption.
    + intros [-> I]. apply (ranges_In 255) in I. apply covered_In in I as (f & ws & I & Q).
      exists (mkDef 8 f (len ws) [("basecost", ws)]). split; [apply in_map_iff; exists (f, ws); split; [reflexivity|exact I]|].
      split; [reflexivity|]. exists ws. split; [left; reflexivity|exact Q].
  - intro H. apply Forall_forall. intros d D. unfold base_costs in D. apply in_map_iff in D as ([f ws] & <- & I). cbn [fst snd].
    assert (C : exists b, values_code FB ws ws b).
    { assert (A : forall e, In e (numbered f ws) -> In e costs).
      { intros e E. apply (ranges_In 255). apply covered_In. exists f, ws. split; assumption. }
      clear I. revert f A. induction ws as [|v ws IH]; intros f A; [exists []; apply vc_nil|].
      destruct (H f v (A (f, v) (or_introl eq_refl))) as (_ & n & -> & R). destruct (IH (f + 1)) as [c C]; [intros e E; apply A; right; exact E|].
      exists ([n] ++ c). apply vc_cons; [apply c_B; unfold isbyte; lia|exact C]. }
    destruct C as [c C]. pose proof (proj1 (Forall_forall _ _) (ranges_len 255 costs ltac:(lia)) _ I) as L. cbn [snd] in L.
    destruct (range_ids 255 costs f ws ltac:(lia) I) as [v J]. destruct (H f v J) as [R _].
    eexists. apply dc; [exact R|lia|reflexivity|cbn; apply NoDup_cons; [intros []|apply NoDup_nil]| |].
    + eexists. do 7 right. left. reflexivity.
    + apply pc_cons with FB; [apply by_name_has; reflexivity|lia| |apply pc_nil]. rewrite firstn_len. exact C.
Qed.
(** DisableDefault makes exactly the wanted objects unavailable. *)
Lemma disable_table : forall feature count props, In (feature, (count, props)) DISABLE_INFO ->
  dict_get Z.eqb DISABLE_INFO feature = Some (count, props) /\ (forall name v, disables feature count name v <-> In (name, v) props) /\
  NoDup (map fst props) /\ (exists t, In (feature, t) ACTION0_PROPS) /\ len props < 256 /\
  forall name v, In (name, v) props -> exists code f w b, by_name feature name = Some (code, f) /\ codes f v w b.
Proof.
  intros feature count props H. cbn in H.
  assert (X : forall n : Z, isbyte n -> exists w b, codes PClimate (VInt n) w b) by (intros n R; eexists; eexists; apply c_climate; exact R).
  destruct H as [H|[H|[H|[H|[H|[H|[H|[]]]]]]]]; apply pair_inj in H as [<- H]; apply pair_inj in H as [<- <-].
  all: split; [reflexivity|].
  all: split; [intros name v; split; [intro D; inversion D; cbn; tauto|cbn; intros D; repeat match type of D with _ \/ _ => destruct D as [D|D] | False => destruct D end; apply pair_inj in D as [<- <-]; first [apply di_train|apply di_rv|apply di_ship|apply di_aircraft|apply di_house|apply di_industry|apply di_cargo|apply di_cargo_label]]|].
  all: split; [cbn; repeat (apply NoDup_cons; [cbn; intuition discriminate|]); apply NoDup_nil|].
  all: split; [eexists; cbn; tauto|split; [reflexivity|]].
  all: intros name v D; cbn in D; repeat match type of D with _ \/ _ => destruct D as [D|D] | False => destruct D end; apply pair_inj in D as [<- <-]; eexists; eexists; eexists; eexists; (split; [reflexivity|]).
  all: first [apply c_climate; unfold isbyte; lia|apply c_B; unfold isbyte; lia|apply c_L_int; lia].
Qed.
Lemma disable_keys : forall feature count name v, disables feature count name v -> exists props, In (feature, (count, props)) DISABLE_INFO.
Proof. intros feature count name v H. destruct H; eexists; cbn; tauto. Qed.
Lemma zrange_In : forall n x, In x (zrange n) <-> 0 <= x < n.
Proof.
  intros. unfold zrange. rewrite in_map_iff. split.
  - intros (k & <- & K). apply in_seq in K. lia.
  - intro H. exists (Z.to_nat x). split; [lia|]. apply in_seq. lia.
Qed.
Theorem C36_disable_default : forall feature count name0 v0 ids, disables feature count name0 v0 -> (forall l, ids <> IdsIterator l) ->
  exists recs, disable_default feature ids = Some recs /\
  (forall id name v, (exists d, In d recs /\ df_feature d = feature /\ sets d id name v) <-> wants count ids id /\ disables feature count name v) /\
  ((forall id, wants count ids id -> 0 <= id <= 65535) -> Forall (fun d => exists c b, define_codes d c b) recs).
Proof.
  intros feature count name0 v0 ids D0 NI. destruct (disable_keys _ _ _ _ D0) as [props D].
  destruct (disable_table _ _ _ D) as (G & DI & ND & T & LP & C). unfold disable_default, disable_init. rewrite G. cbn [bind].
  set (l := match ids with IdsNone => zrange count | IdsInt n => [n] | IdsList l => l | IdsIterator l => l end).
  assert (W : forall id, wants count ids id <-> In id l).
  { intro id. unfold l. destruct ids as [|n|l'|l'].
    - rewrite zrange_In. split; [intro H; inversion H; assumption|apply wa_all].
    - split; [intro H; inversion H; left; reflexivity|intros [<-|[]]; apply wa_one].
    - split; [intro H; inversion H; assumption|apply wa_list].
    - destruct (NI l' eq_refl). }
  set (mk := fun r : Z * list unit => mkDef feature (fst r) (len (snd r)) (map (fun p => (fst p, map (fun _ => snd p) (snd r))) props)).
  assert (E : exists l', disable_default feature ids = Some (map mk (combine_ranges 255 (map (fun x => (x, tt)) l'))) /\ l' = l).
  { exists l. split; [|reflexivity]. unfold disable_default, disable_init. rewrite G. cbn [bind]. unfold l. destruct ids; try reflexivity. destruct (NI l0 eq_refl). }
  destruct E as (l' & E & ->). unfold disable_default, disable_init in E. rewrite G in E. cbn [bind] in E.
  eexists. split; [exact E|]. clear E. split.
  - intros id name v. split.
    + intros (d & I & F & vs & P & Q). apply in_map_iff in I as ([f us] & <- & I). unfold mk in P, Q. cbn [df_props df_first fst snd] in P, Q.
      apply in_map_iff in P as ([nm x] & P & J). cbn [fst snd] in P. injection P as -> <-. rewrite numbered_map in Q.
      apply in_map_iff in Q as ([i []] & Q & K). cbn [fst] in Q. injection Q as -> <-. split; [|apply DI; exact J].
      apply W. assert (Y : In (id, tt) (map (fun x => (x, tt)) l)) by (apply (ranges_In 255), covered_In; exists f, us; split; assumption).
      apply in_map_iff in Y as (y & Y & Z0). injection Y as ->. exact Z0.
    + intros [WI DN]. apply W in WI. apply DI in DN.
      assert (Y : In (id, tt) (covered (combine_ranges 255 (map (fun x => (x, tt)) l)))) by (apply (ranges_In 255); exact (in_map (fun x => (x, tt)) _ _ WI)).
      apply covered_In in Y as (f & us & I & K). exists (mk (f, us)). split; [apply in_map; exact I|]. split; [reflexivity|].
      exists (map (fun _ => v) us). split; [apply in_map_iff; exists (name, v); split; [reflexivity|exact DN]|].
      unfold mk. cbn [df_first fst]. rewrite numbered_map. apply in_map_iff. exists (id, tt). split; [reflexivity|exact K].
  - intro R. apply Forall_forall. intros d X. apply in_map_iff in X as ([f us] & <- & I). unfold mk. cbn [fst snd].
    pose proof (proj1 (Forall_forall _ _) (ranges_len 255 _ ltac:(lia)) _ I) as L. cbn [snd] in L.
    destruct (range_ids 255 _ f us ltac:(lia) I) as [[] J]. apply in_map_iff in J as (f' & J & K). injection J as ->. apply W in K.
    destruct (props_code_all feature (len us) (map (fun p => (fst p, map (fun _ => snd p) us)) props)) as (qs & b & PC).
    { intros name vs J. apply in_map_iff in J as ([nm x] & J & Z0). cbn [fst snd] in J. injection J as -> <-.
      destruct (C name x Z0) as (code & f0 & w & b & B & CV). destruct (codes_const f0 x w b us CV) as (ws & bs & VC).
      exists code, f0, ws, bs. split; [exact B|]. split; [apply len_map|exact VC]. }
    eexists. eexists. apply dc; [exact (R f K)|lia|rewrite len_map; exact LP| |exact T|exact PC].
    rewrite map_map. cbn [fst]. exact ND.
Qed.
(** With a generator for the ids, the check in the constructor uses it up and
    nothing is disabled. *)
Theorem C36_iterator_refuted : forall feature count name v ids, disables feature count name v -> disable_default feature (IdsIterator ids) = Some [].
Proof. intros feature count name v ids H. destruct H; reflexivity. Qed.

(** ** C37 *)
(** The game's list [before], with all listed vehicles in it, becomes a list
    with the listed vehicles in the user's order, in the place of the last of
    them, and the others in the order they had. *)
Theorem C37_order : forall feature vid l before, Forall (fun e => vitem_ok e = true) l -> NoDup (map vid (listed l)) -> listed l <> [] ->
  NoDup before -> incl (map vid (listed l)) before ->
  exists s a b, purchase_order l = Some s /\ before = a ++ vid (last (listed l) O) :: b /\
  apply_defines (get_sprites feature vid s) before = unlisted (map vid (listed l)) a ++ map vid (listed l) ++ unlisted (map vid (listed l)) b.
Proof.
  intros feature vid l before O N NE NB I. assert (NL : NoDup (listed l)) by exact (NoDup_map_inv _ _ N).
  destruct (order_ok l O NL NE) as (s & P & F & _). rewrite <- F in *.
  destruct (order_applied feature vid s _ before _ eq_refl NE N NB I eq_refl) as (a & b & E & Q).
  exists s, a, b. split; [exact P|]. split; [exact E|exact Q].
Qed.
(** Each vehicle is shown under the first vehicle of its group. *)
Theorem C37_variant_groups : forall feature vid l, Forall (fun e => vitem_ok e = true) l -> NoDup (map vid (listed l)) -> listed l <> [] ->
  exists s, purchase_order l = Some s /\
  forall v g, In v (listed l) -> ((exists d, In d (get_sprites feature vid s) /\ df_first d = vid v /\ In ("variant_group", [VInt g]) (df_props d)) <->
    exists e h, In e l /\ shown_under e v h /\ g = vid h).
Proof.
  intros feature vid l O N NE. assert (NL : NoDup (listed l)) by exact (NoDup_map_inv _ _ N).
  destruct (order_ok l O NL NE) as (s & P & F & G & _). exists s. split; [exact P|]. intros v g I. unfold get_sprites. rewrite F.
  rewrite (order_variants feature vid (o_group s) (rev (listed l)) None v g (NoDup_rev NL)). split.
  - intros (w & h & J & E & Q & ->). rewrite <- in_rev in J.
    assert (w = v) as ->.
    { clear - N I J E. induction (listed l) as [|x r IH]; [destruct I|]. cbn [map] in N. apply NoDup_cons_iff in N as [N1 N2].
      destruct I as [->|I], J as [->|J]; [reflexivity| | |exact (IH N2 I J)]; exfalso; apply N1.
      - rewrite <- E. apply in_map. exact J.
      - rewrite E. apply in_map. exact I. }
    apply G in Q as (e & E1 & E2). exists e, h. split; [exact E1|]. split; [exact E2|reflexivity].
  - intros (e & h & E1 & E2 & ->). exists v, h. split; [rewrite <- in_rev; exact I|]. split; [reflexivity|]. split; [|reflexivity].
    apply G. exists e. split; assumption.
Qed.
(** The name callback of a vehicle has exactly the names of the named groups
    around it, by their depth. *)
Theorem C37_group_names : forall text l, Forall (fun e => vitem_ok e = true) l -> NoDup (listed l) -> listed l <> [] ->
  exists s, purchase_order l = Some s /\
  (forall v, (exists names, dict_get Nat.eqb (o_names s) v = Some names) <-> exists e j n, In e l /\ in_named 0 e v j n) /\
  forall v names k t, dict_get Nat.eqb (o_names s) v = Some names ->
    (dict_get Z.eqb (variant_ranges text names) k = Some t <-> exists e j n, In e l /\ in_named 0 e v j n /\ k = 32 + 256 * j /\ t = text n).
Proof.
  intros text l O N NE. destruct (order_ok l O N NE) as (s & P & F & G & A & B). exists s. split; [exact P|]. split.
  - intro v. split.
    + intros [c C]. destruct (B v c C) as (_ & NC & ND & _). destruct c as [|[j n] c]; [destruct (NC eq_refl)|].
      assert (Q : exists c', gn s v = Some c' /\ gz c' j = Some n).
      { exists ((j, n) :: c). split; [exact C|]. unfold gz. cbn [dict_get]. rewrite Z.eqb_refl. reflexivity. }
      apply A in Q as (e & E1 & E2). exists e, j, n. split; assumption.
    + intros (e & j & n & E1 & E2). destruct (proj2 (A v j n) (ex_intro _ e (conj E1 E2))) as (c & C & _). exists c. exact C.
  - intros v c k t C. destruct (B v c C) as (_ & NC & ND & NN). rewrite (ranges_get text c k t ND NN). split.
    + intros (j & n & Q & K & T). assert (X : exists c', gn s v = Some c' /\ gz c' j = Some n) by (exists c; split; assumption).
      apply A in X as (e & E1 & E2). exists e, j, n. split; [exact E1|]. split; [exact E2|]. split; assumption.
    + intros (e & j & n & E1 & E2 & K & T). destruct (proj2 (A v j n) (ex_intro _ e (conj E1 E2))) as (c' & C' & Q).
      exists j, n. split; [|split; assumption]. unfold gn in C'. congruence.
Qed.
(** The records can be written and are read back as they are. *)
Theorem C37_records : forall feature vid s, 0 <= feature <= 3 -> (forall v, 0 <= vid v <= 65535) ->
  Forall (fun d => exists b, define_codes d d b) (get_sprites feature vid s).
Proof. intros. unfold get_sprites. apply order_codes; assumption. Qed.
(** A group of fewer than two items, or with a group in front, is refused. *)
Theorem C37_refused : forall l e, In e l -> vitem_ok e = false -> purchase_order l = None.
Proof.
  intros l e I H. unfold purchase_order. destruct (forallb vitem_ok l) eqn:F; [|reflexivity].
  rewrite forallb_forall in F. rewrite (F e I) in H. discriminate.
Qed.

(** ** C38 *)
Theorem C38_head : forall n, 1 <= n <= 24 -> exists t, train_init (Some n) None = Some t /\
  total (train_lengths t) = n /\ Forall (fun x => 1 <= x <= 8) (train_lengths t) /\
  (n <= 8 -> tr_parts t = []) /\ (8 < n -> exists e m, train_lengths t = [e; m; e] /\ 7 <= m <= 8).
Proof.
  intros n H. unfold train_init, calc_articulation. cbn [negb].
  replace (n <=? 24) with true by (symmetry; apply Z.leb_le; lia). destruct (Z.leb_spec n 8).
  - cbn [bind]. eexists. split; [reflexivity|]. unfold train_lengths, lengths, part_length, total. cbn [tr_head tr_parts map fold_right].
    split; [lia|]. split; [apply Forall_cons; [lia|apply Forall_nil]|]. split; [reflexivity|lia].
  - cbn [bind]. destruct (Z.eqb_spec (n mod 2) 1) as [E|E]; cbn [bind].
    + eexists. split; [reflexivity|]. unfold train_lengths, lengths, part_length, total. cbn [tr_head tr_parts map fold_right].
      split; [lia|]. split; [apply Forall_cons; [lia|apply Forall_cons; [lia|apply Forall_cons; [lia|apply Forall_nil]]]|]. split; [lia|].
      intros _. eexists. eexists. split; [reflexivity|lia].
    + eexists. split; [reflexivity|]. unfold train_lengths, lengths, part_length, total. cbn [tr_head tr_parts map fold_right].
      split; [lia|]. split; [apply Forall_cons; [lia|apply Forall_cons; [lia|apply Forall_cons; [lia|apply Forall_nil]]]|]. split; [lia|].
      intros _. eexists. eexists. split; [reflexivity|lia].
Qed.
Theorem C38_too_long : forall n s, 24 < n -> train_init (Some n) s = None.
Proof.
  intros n s H. unfold train_init, calc_articulation. destruct s; [reflexivity|]. cbn [negb].
  replace (n <=? 24) with false by (symmetry; apply Z.leb_gt; lia). reflexivity.
Qed.
Theorem C38_length_and_shorten_by : forall n s, train_init (Some n) (Some s) = None /\ forall t, add_part t (Some n) (Some s) = None.
Proof. intros. split; [|intro t]; reflexivity. Qed.
(** Further parts of up to 8 units, or whose length is odd or even as that of
    the head is. *)
Theorem C38_part_partial : forall t n, 1 <= n <= 24 -> (n <= 8 \/ exists h, tr_length t = Some h /\ h mod 2 = n mod 2) ->
  exists t' ps, add_part t (Some n) None = Some t' /\ tr_length t' = tr_length t /\ train_lengths t' = train_lengths t ++ ps /\
  total ps = n /\ Forall (fun x => 1 <= x <= 8) ps.
Proof.
  intros t n H P. unfold add_part, calc_articulation. cbn [negb].
  replace (n <=? 24) with true by (symmetry; apply Z.leb_le; lia). destruct (Z.leb_spec n 8).
  - cbn [bind]. eexists. exists [n]. split; [reflexivity|]. split; [reflexivity|]. unfold train_lengths, lengths, part_length.
    cbn [tr_head tr_parts]. rewrite map_app. cbn [map app]. split; [f_equal; f_equal; f_equal; lia|].
    split; [cbn; lia|]. apply Forall_cons; [lia|apply Forall_nil].
  - destruct P as [P|(h & -> & P)]; [lia|]. cbn [bind]. destruct (Z.eqb_spec (h mod 2) 1) as [E|E]; cbn [bind].
    + eexists. exists [(n - 7) / 2; 7; (n - 7) / 2]. split; [reflexivity|]. split; [reflexivity|]. unfold train_lengths, lengths, part_length.
      cbn [tr_head tr_parts]. rewrite map_app. cbn [map app]. split; [f_equal; f_equal; f_equal; [lia|f_equal; f_equal; lia]|].
      split; [cbn [total fold_right]; lia|]. apply Forall_cons; [lia|apply Forall_cons; [lia|apply Forall_cons; [lia|apply Forall_nil]]].
    + eexists. exists [(n - 8) / 2; 8; (n - 8) / 2]. split; [reflexivity|]. split; [reflexivity|]. unfold train_lengths, lengths, part_length.
      cbn [tr_head tr_parts]. rewrite map_app. cbn [map app]. split; [f_equal; f_equal; f_equal; [lia|f_equal; f_equal; lia]|].
      split; [cbn [total fold_right]; lia|]. apply Forall_cons; [lia|apply Forall_cons; [lia|apply Forall_cons; [lia|apply Forall_nil]]].
Qed.
(** A part longer than 8 is split by the parity of the head's length: when its
    own is different, one unit is lost. *)
Theorem C38_part_parity_refuted : forall t h n, tr_length t = Some h -> 9 <= n <= 24 -> h mod 2 <> n mod 2 ->
  exists t' ps, add_part t (Some n) None = Some t' /\ train_lengths t' = train_lengths t ++ ps /\ total ps = n - 1.
Proof.
  intros t h n E H P. unfold add_part, calc_articulation. cbn [negb]. rewrite E.
  replace (n <=? 24) with true by (symmetry; apply Z.leb_le; lia). destruct (Z.leb_spec n 8); [lia|]. cbn [bind].
  destruct (Z.eqb_spec (h mod 2) 1) as [O|O]; cbn [bind].
  - eexists. exists [(n - 7) / 2; 7; (n - 7) / 2]. split; [reflexivity|]. unfold train_lengths, lengths, part_length.
    cbn [tr_head tr_parts]. rewrite map_app. cbn [map app]. split; [f_equal; f_equal; f_equal; [lia|f_equal; f_equal; lia]|].
    cbn [total fold_right]. lia.
  - eexists. exists [(n - 8) / 2; 8; (n - 8) / 2]. split; [reflexivity|]. unfold train_lengths, lengths, part_length.
    cbn [tr_head tr_parts]. rewrite map_app. cbn [map app]. split; [f_equal; f_equal; f_equal; [lia|f_equal; f_equal; lia]|].
    cbn [total fold_right]. lia.
Qed.
(** With a head without length such a part is refused. *)
Theorem C38_part_no_head_length_refuted : forall t n, tr_length t = None -> 9 <= n <= 24 -> add_part t (Some n) None = None.
Proof.
  intros t n E H. unfold add_part, calc_articulation. cbn [negb]. rewrite E.
  replace (n <=? 24) with true by (symmetry; apply Z.leb_le; lia). destruct (Z.leb_spec n 8); [lia|]. reflexivity.
Qed.
(** Lengths below 1 are accepted. *)
Theorem C38_zero_length_refuted : exists t, train_init (Some 0) None = Some t /\ train_lengths t = [0].
Proof. eexists. split; reflexivity. Qed.

(** ** C40 *)
Theorem C40_identity : forall c, adjust_brightness c 128 = c.
Proof. reflexivity. Qed.
Theorem C40_in_range : forall c k, colour_ok c -> 0 <= k <= 255 -> colour_ok (adjust_brightness c k).
Proof.
  intros [[r g] b] k C K. destruct (Z.eq_dec k 128) as [->|N]; [exact C|]. rewrite brightness_eq by assumption. destruct C as (R & G & B).
  assert (X : forall x, 0 <= x <= 255 -> 0 <= scaled x k) by (intros; unfold scaled; apply Z.div_pos; nia).
  pose proof (X r R) as XR. pose proof (X g G) as XG. pose proof (X b B) as XB.
  set (x := scaled r k) in *. set (y := scaled g k) in *. set (z := scaled b k) in *. clearbody x y z. clear - XR XG XB.
  destruct ((x <=? 255) && (y <=? 255) && (z <=? 255)) eqn:E.
  - rewrite !andb_true_iff, !Z.leb_le in E. unfold colour_ok. lia.
  - set (o := (excess x + excess y + excess z) / 2). assert (O : 0 <= o) by (unfold o, excess; lia).
    assert (Y : forall v, 0 <= v -> 0 <= (if 255 <=? v then 255 else Z.min (v + o * (255 - v) / 256) 255) <= 255).
    { intros v V. destruct (Z.leb_spec 255 v); [lia|]. assert (0 <= o * (255 - v)) by nia. split; [|apply Z.le_min_r].
      apply Z.min_glb; [|lia]. pose proof (Z.div_pos (o * (255 - v)) 256). lia. }
    unfold colour_ok. split; [apply Y; exact XR|split; apply Y; assumption].
Qed.
(** No component above white: each is multiplied by brightness / 128. *)
Theorem C40_exact : forall r g b k, colour_ok (r, g, b) -> 0 <= k <= 255 -> scaled r k <= 255 -> scaled g k <= 255 -> scaled b k <= 255 ->
  adjust_brightness (r, g, b) k = (scaled r k, scaled g k, scaled b k).
Proof.
  intros r g b k C K R G B. destruct (Z.eq_dec k 128) as [->|N].
  - cbn [adjust_brightness]. unfold scaled. rewrite !Z.div_mul by lia. reflexivity.
  - rewrite brightness_eq by assumption. rewrite !(proj2 (Z.leb_le _ _)) by assumption. reflexivity.
Qed.
(** Otherwise the components above white become 255, and half of what is above
    is shared out: the others get their 256th part of it for each unit they are
    below white. *)
Theorem C40_overbright : forall r g b k, colour_ok (r, g, b) -> 0 <= k <= 255 -> 255 < Z.max (scaled r k) (Z.max (scaled g k) (scaled b k)) ->
  let o := (excess (scaled r k) + excess (scaled g k) + excess (scaled b k)) / 2 in
  let adj v := if 255 <=? v then 255 else Z.min (v + o * (255 - v) / 256) 255 in
  adjust_brightness (r, g, b) k = (adj (scaled r k), adj (scaled g k), adj (scaled b k)).
Proof.
  intros r g b k C K M o adj. destruct (Z.eq_dec k 128) as [->|N].
  - exfalso. destruct C as (R & G & B). unfold scaled in M. rewrite !Z.div_mul in M by lia. lia.
  - rewrite brightness_eq by assumption. destruct ((scaled r k <=? 255) && (scaled g k <=? 255) && (scaled b k <=? 255)) eqn:E; [|reflexivity].
    rewrite !andb_true_iff, !Z.leb_le in E. lia.
Qed.

(** ** Concrete cases *)
Example c36_case : combine_ranges 3 [(7, "a"); (1, "b"); (2, "c"); (4, "d"); (3, "e")] = [(1, ["b"; "c"; "e"]); (4, ["d"]); (7, ["a"])].
Proof. reflexivity. Qed.
Example c36_disable_case : disable_default 11 (IdsList [5; 4; 9]) =
  Some [mkDef 11 4 2 [("bit_number", [VInt 255; VInt 255]); ("label", [VInt 0; VInt 0])]; mkDef 11 9 1 [("bit_number", [VInt 255]); ("label", [VInt 0])]].
Proof. reflexivity. Qed.
Definition order1 : list vitem := [VVeh 3; VGroup (Some "a") [VVeh 1; VGroup (Some "b") [VVeh 4; VVeh 2]]].
Example c37_case : Forall (fun e => vitem_ok e = true) order1 /\ NoDup (map Z.of_nat (listed order1)) /\
  exists s, purchase_order order1 = Some s /\
  apply_defines (get_sprites 0 Z.of_nat s) [0; 1; 2; 3; 4; 5] = [0; 3; 1; 4; 2; 5] /\
  o_group s = [(4, 1); (2, 4)]%nat /\ dict_get Nat.eqb (o_names s) 2%nat = Some [(0, "a"); (1, "b")].
Proof.
  split; [apply Forall_cons; [reflexivity|apply Forall_cons; [reflexivity|apply Forall_nil]]|].
  split; [cbn; repeat (apply NoDup_cons; [cbn; intuition discriminate|]); apply NoDup_nil|].
  eexists. split; [reflexivity|]. split; [reflexivity|split; reflexivity].
Qed.
Example c38_case : option_map train_lengths (train_init (Some 17) None) = Some [5; 7; 5].
Proof. reflexivity. Qed.
Example c40_case : adjust_brightness (200, 100, 0) 255 = (255, 214, 70).
Proof. reflexivity. Qed.

Print Assumptions C36_combine_ranges.
Print Assumptions C36_base_costs.
Print Assumptions C36_disable_default.
Print Assumptions C36_iterator_refuted.
Print Assumptions C37_order.
Print Assumptions C37_variant_groups.
Print Assumptions C37_group_names.
Print Assumptions C37_records.
Print Assumptions C37_refused.
Print Assumptions C38_head.
Print Assumptions C38_too_long.
Print Assumptions C38_length_and_shorten_by.
Print Assumptions C38_part_partial.
Print Assumptions C38_part_parity_refuted.
Print Assumptions C38_part_no_head_length_refuted.
Print Assumptions C38_zero_length_refuted.
Print Assumptions C40_identity.
Print Assumptions C40_in_range.
Print Assumptions C40_exact.
Print Assumptions C40_overbright.
