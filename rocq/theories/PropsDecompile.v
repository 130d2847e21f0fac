(** C77: the program and the files a decompiled grf consists of, as far as
    sprites and sounds go.  The specification is SpecDecompile with
    SpecProgram and SpecExtract; what the entries of the table are is C75. *)
From Coq Require Import ZArith List Bool String Lia.
From Verif Require Import Base BaseFacts RecordsModel RecordsProofs DecodeModel SpecDecode DecodeProofs SheetProofs AnnounceModel AnnounceProofs SpecAnnounce ExtractModel SpecExtract ExtractProofs ExtractProofs2 ExtractProofs3 PropsExtract PyValue SpecPython PyTextModel PyReadProofs PropsAnnounce PyGraphicsModel SpecProgram PyGraphicsProofs PropsPyGraphics PropsDecode ContainerModel SpriteModel PropsSprite DecompileModel SpecDecompile DecompileProofs.
Import ListNotations.
Open Scope string_scope.
Open Scope list_scope.
Open Scope Z_scope.

Lemma nodup_app' {A} (a b : list A) : NoDup a -> NoDup b -> (forall x, In x a -> ~ In x b) -> NoDup (a ++ b).
Proof. intros N M D. induction N as [|x a N1 N2 IH]; [exact M|]. cbn [app]. constructor; [|apply IH; intros y I; apply D; now right]. intros I. apply in_app_or in I as [I|I]; [exact (N1 I)|exact (D x (or_introl eq_refl) I)]. Qed.
Lemma table_full h1 h2 container c l fs table i es : extract h1 h2 container c l = Some (fs, table) -> dict_get Z.eqb table i = Some es -> es <> [].
Proof.
  unfold extract. intros H. apply bind_some in H as ([fs' es'] & _ & H). apply some_inj in H. apply pair_inj in H as [_ <-].
  assert (G : forall l d, Forall (fun kv => snd kv <> []) d -> Forall (fun kv : Z * list entry => snd kv <> []) (fold_left (fun d e => dict_append Z.eqb d (entry_id e) e) l d)).
  { induction l0 as [|e l0 IH]; intros d F; [exact F|]. cbn [fold_left]. apply IH. unfold dict_append. match goal with |- context [dict_set _ _ _ ?x] => set (v := x) end. assert (V : v <> []) by (unfold v; intros E; apply app_eq_nil in E as [_ E]; discriminate). clearbody v.
    induction F as [|[k x] d X F IHd]; cbn [dict_set]; [constructor; [exact V|constructor]|]. destruct (entry_id e =? k); constructor; assumption. }
  intros E. apply (get_key Z.eqb zeqb_ok) in E. specialize (G es' [] (Forall_nil _)). rewrite Forall_forall in G. exact (G _ E).
Qed.

(** The places for sprites are the references the announcements see. *)
Lemma placeholders_references l : forall c c', read_records l c = Some c' -> placeholders l = references l.
Proof.
  induction l as [|[t d] l IH]; intros c c' H; [reflexivity|]. cbn [read_records] in H. apply bind_some in H as (c1 & R & H).
  unfold placeholders, references in *. cbn [flat_map]. rewrite (IH _ _ H). f_equal. clear IH H.
  unfold reference. cbn [fst snd]. destruct (Z.eqb_spec t 253) as [->|N]; [|reflexivity].
  unfold read_record in R. change (253 =? 255) with false in R. change (253 =? 253) with true in R. cbn iota in R.
  destruct (Z.eqb_spec (len d) 4) as [L|L]; [|discriminate R]. pose proof (rd_I_four d) as E.
  destruct d as [|b0 [|b1 [|b2 [|b3 [|b4 d]]]]]; try (unfold len in L; cbn [List.length] in L; lia). rewrite E. reflexivity.
Qed.

(** The printed program runs, and at each place where the file announces a
    sprite it adds the pictures of that sprite (C75, C76) or the sound of
    that number: a file that holds its bytes, from where they begin, as many
    as the record says. *)
Theorem C77_runs : forall ascii h1 h2 records f images wavs text c l,
  Forall (fun b => 0 <= b < 256) f -> decompile ascii h1 h2 records f = Some (images, wavs, text) ->
  read_records records new_ctx = Some c -> read_reals (S (List.length f)) (kind_of c) f = Some l ->
  (forall i p n name, In (RSound i p n name) l -> 0 <= n) ->
  (forall i p g, In (RGraphics i p g) l -> Z.testbit (g_type g) 0 || Z.testbit (g_type g) 2 = true \/ just_alpha (g_type g) = true) ->
  exists table stmts adds, extract h1 h2 2 c (reals l) = Some (images, table) /\ Program text stmts /\ execute [] stmts = Some adds /\
    shows l table wavs (references records) adds.
Proof.
  intros ascii h1 h2 records f images wavs text c l Fb H Ec El Sz Ch. unfold decompile in H. rewrite Ec in H. cbn [bind] in H. rewrite El in H. cbn [bind] in H.
  apply bind_some in H as ([im table] & Ex & H). apply bind_some in H as ([ws out] & Es & H). apply bind_some in H as (t & Et & H). apply some_inj in H. apply pair_inj in H as [H ->]. apply pair_inj in H as [-> ->].
  assert (R : reached c) by (exists records, [], c; split; [exact Ec|reflexivity]). destruct (fair_reals l (reals_fair _ _ _ _ Fb El)) as [Ff Zm].
  destruct (save_result _ _ _ _ Es Sz) as (_ & Sv). pose proof (table_files _ _ _ _ _ _ _ R Ff Ex) as T.
  rewrite (placeholders_references _ _ _ Ec) in Et. set (ids := references records) in *. set (gs := map (resolve table out) ids) in *.
  assert (Sp : forall i es, dict_get Z.eqb table i = Some es -> statements table i = es) by (intros i es E; rewrite statements_get, E; reflexivity).
  assert (Gp : forall p, In p (flat_map gpaths gs) -> exists i t, (t = txt ".png" \/ t = txt "_32bpp.png") /\ p = RESOURCES ++ group_of c i ++ t).
  { intros p I. apply in_flat_map in I as (g & Ig & I). apply in_map_iff in Ig as (i & <- & _). unfold resolve in I. destruct (dict_get Z.eqb out i); [destruct I|]. destruct (dict_get Z.eqb table i) as [es|] eqn:E; [|destruct I]. cbn [gpaths] in I.
    unfold paths in I. apply in_flat_map in I as (e & Ie & I). rewrite <- (Sp i es E) in Ie. destruct (T i e Ie) as [Fe _]. destruct (path_cases c e p Fe I) as (u & Cu & Ep). exists (f_id (e_sprite e)), u. split; assumption. }
  assert (Pok : forall p, In p (flat_map gpaths gs) -> path_ok p).
  { intros p I. destruct (Gp p I) as (i & u & Cu & ->). destruct (reached_simple c i R) as [S1 S2]. apply file_ok; [exact S1|exact S2|apply suffix_ok, Cu]. }
  assert (Gok : Forall gok gs).
  { apply Forall_forall. intros g Ig. pose proof Ig as Jg. apply in_map_iff in Ig as (i & <- & _). unfold resolve in *. specialize (Sv i). destruct (dict_get Z.eqb out i) as [path|]; [exact (proj1 Sv)|]. destruct (dict_get Z.eqb table i) as [es|] eqn:E; [|exact I].
    cbn [gok]. assert (Pp : Forall path_ok (paths es)) by (apply Forall_forall; intros p Ip; apply Pok, in_flat_map; exists (GPictures es); split; assumption). split; [exact (table_full _ _ _ _ _ _ _ _ _ Ex E)|]. split; [|exact Pp].
    apply Forall_forall. intros e Ie. rewrite <- (Sp i es E) in Ie. destruct (T i e Ie) as [_ Il]. split; [apply Zm, Il|]. apply Forall_forall. intros p Ip. rewrite (Sp i es E) in Ie. rewrite Forall_forall in Pp. apply Pp. unfold paths. apply in_flat_map. exists e. split; assumption. }
  destruct (gens_text gs [] Gok) as (tt & Ett & (m & Rd)). change (gens_program [] gs = Some tt) in Ett. rewrite Et in Ett. apply some_inj in Ett. subst tt.
  assert (Run : execute [] (gall [] gs) = additions gs).
  { apply execute_all; [intros p []| |].
    - apply Forall_forall. intros g Ig. apply Forall_forall. intros p Ip. unfold kept_path. assert (Ia : In p (flat_map gpaths gs)) by (apply in_flat_map; exists g; split; assumption). destruct (Pok p Ia) as (_ & _ & K). unfold KEPT. cbn [existsb]. rewrite K, orb_false_r.
      destruct (Gp p Ia) as (i & u & Cu & Ep). destruct (reached_simple c i R) as [S1 _]. destruct (same (file_var p) (txt "RAWSound")) eqn:Q; [|reflexivity]. exfalso. apply same_iff in Q. rewrite Ep, (var_of_file _ u S1 (suffix_ok u Cu)) in Q. apply (f_equal (fun x => firstn 4 (rev x))) in Q. rewrite rev_app_distr in Q. destruct Cu as [-> | ->]; discriminate Q.
    - cbn [app]. intros p q Ip Iq E. destruct (Gp p Ip) as (i & u & Cu & ->), (Gp q Iq) as (j & w & Cw & ->).
      destruct (reached_simple c i R) as [S1 _], (reached_simple c j R) as [S2 _]. rewrite (var_of_file _ u S1 (suffix_ok u Cu)), (var_of_file _ w S2 (suffix_ok w Cw)) in E.
      destruct (C74_files _ _ (reached_group c i R) (reached_group c j R)) as (_ & _ & Z1 & _). destruct (C74_files _ _ (reached_group c j R) (reached_group c i R)) as (_ & _ & Z2 & _). unfold mask_file, rgba_file in *.
      destruct Cu as [-> | ->], Cw as [-> | ->].
      + apply app_inv_tail in E. rewrite E. reflexivity.
      + exfalso. apply Z1. change (txt "_32bpp.png") with (txt "_32bpp" ++ txt ".png"). rewrite app_assoc. f_equal. apply (app_inv_tail (txt "_png")). rewrite <- app_assoc. exact E.
      + exfalso. apply Z2. change (txt "_32bpp.png") with (txt "_32bpp" ++ txt ".png"). rewrite app_assoc. f_equal. apply (app_inv_tail (txt "_png")). rewrite <- app_assoc. symmetry. exact E.
      + apply app_inv_tail in E. rewrite E. reflexivity. }
  assert (S : forall i e, In e (statements table i) -> exists p, shown e = Some p).
  { intros i e Ie. destruct (T i e Ie) as [Fe Il]. apply (shown_some c e Fe). destruct (Ch _ _ _ (proj1 (graphics_reals _ _) Il)) as [X|X]; [exact X|]. exfalso. pose proof (C75_resolved _ _ _ _ _ _ _ R Ff Ex i) as Rs. apply (in_map e_sprite) in Ie. rewrite Rs in Ie. apply filter_In in Ie as [_ Ie]. rewrite X in Ie. discriminate. }
  assert (X : exists adds, additions gs = Some adds /\ shows l table wavs ids adds).
  { unfold gs. clear - S Sv Sp Ex. induction ids as [|i ids IH]; [exists []; split; [reflexivity|constructor]|]. destruct IH as (adds & A & B). cbn [map]. unfold resolve at 1. specialize (Sv i). destruct (dict_get Z.eqb out i) as [path|].
    - destruct Sv as (_ & before & p & n & E1 & E2). exists (Sound path :: adds). cbn [additions]. rewrite A. cbn [bind]. split; [reflexivity|]. exact (S_sound _ _ _ _ _ _ _ _ _ _ E1 E2 B).
    - destruct (dict_get Z.eqb table i) as [es|] eqn:E.
      + destruct (all_shown_map es) as (ps & C1 & C2); [intros e Ie; apply (S i); rewrite (Sp i es E); exact Ie|]. exists (Pictures ps :: adds). cbn [additions]. rewrite C1, A. cbn [bind]. split; [reflexivity|].
        apply S_pictures; [exact Sv| |rewrite (Sp i es E); symmetry; exact C2|exact B]. rewrite (Sp i es E). exact (table_full _ _ _ _ _ _ _ _ _ Ex E).
      + exists adds. cbn [additions]. split; [exact A|]. apply S_nothing; [exact Sv|rewrite statements_get, E; reflexivity|exact B]. }
  destruct X as (adds & A & B). exists table, (gall [] gs), adds. split; [exact Ex|]. split; [exists m; apply Rd, le_n|]. split; [rewrite Run; exact A|exact B].
Qed.

(** ** The files *)
Lemma part_nodup h1 h2 container g m p fs es p' : extract_group h1 h2 container g m p = Some (fs, es, p') -> NoDup (map fst fs).
Proof.
  unfold extract_group. destruct (sheet_size _) as [[W H] lo]. intros E. cbv zeta in E. apply bind_some in E as ([l q] & A & E). apply some_inj in E. apply pair_inj in E as [E _]. apply pair_inj in E as [<- _].
  destruct (existsb _ m), (existsb _ m); cbn [map fst app]; repeat constructor; try (intros [Q|[]]); try (intros []). apply app_inv_head in Q. symmetry in Q. apply mask_not_rgba in Q. apply (f_equal (@List.length Z)) in Q. rewrite app_length in Q. cbn in Q. lia.
Qed.
Lemma groups_nodup h1 h2 container gs p fs es : extract_groups h1 h2 container gs p = Some (fs, es) -> NoDup (map fst gs) -> good_groups (map fst gs) ->
  NoDup (map fst fs) /\ forall f, In f (map fst fs) -> exists g, In g (map fst gs) /\ In f (file_names g).
Proof.
  intros E. apply extract_groups_parts in E as (parts & F & -> & ->). induction F as [|[g m] part gs parts (p1 & p2 & E) F IH]; intros N G; [split; [constructor|intros f []]|]. cbn [map fst] in N. inversion N as [|? ? N1 N2]; subst. cbn [fst snd] in E.
  assert (G' : good_groups (map fst gs)) by (intros a b f Ia Ib; apply G; right; assumption). destruct (IH N2 G') as [I1 I2]. cbn [flat_map]. rewrite map_app. split.
  - apply nodup_app'; [exact (part_nodup _ _ _ _ _ _ _ _ _ E)|exact I1|]. intros f A B. apply (part_names _ _ _ _ _ _ _ _ _ _ E) in A. destruct (I2 f B) as (g' & Ig & Ff). apply N1. rewrite (G g g' f); [exact Ig|now left|right; exact Ig|exact A|exact Ff].
  - intros f I. apply in_app_or in I as [I|I]; [exists g; split; [now left|exact (part_names _ _ _ _ _ _ _ _ _ _ E I)]|]. destruct (I2 f I) as (g' & Ig & Ff). exists g'. split; [now right|exact Ff].
Qed.
(** No file is written twice: image files and sound files all have different
    names. *)
Theorem C77_files : forall ascii h1 h2 records f images wavs text c l,
  Forall (fun b => 0 <= b < 256) f -> decompile ascii h1 h2 records f = Some (images, wavs, text) ->
  read_records records new_ctx = Some c -> read_reals (S (List.length f)) (kind_of c) f = Some l ->
  NoDup (map fst images ++ map fst wavs).
Proof.
  intros ascii h1 h2 records f images wavs text c l Fb H Ec El. unfold decompile in H. rewrite Ec in H. cbn [bind] in H. rewrite El in H. cbn [bind] in H.
  apply bind_some in H as ([im table] & Ex & H). apply bind_some in H as ([ws out] & Es & H). apply bind_some in H as (t & Et & H). apply some_inj in H. apply pair_inj in H as [H _]. apply pair_inj in H as [-> ->].
  assert (R : reached c) by (exists records, [], c; split; [exact Ec|reflexivity]). destruct (fair_reals l (reals_fair _ _ _ _ Fb El)) as [Ff _]. apply extract_statements in Ex as (es & Ex & _). destruct (groups_ok c _ R Ff) as (N & G & _).
  destruct (groups_nodup _ _ _ _ _ _ _ Ex N G) as [A B]. destruct (save_inv _ _ _ _ _ _ Es) as (us & U & W & _). destruct (C43_unique _ _ _ _ U) as [Nu _]. apply nodup_app'; [exact A|rewrite W; apply nodup_map_inj; [intros a b; apply app_inv_head|exact Nu]|].
  intros p I J. destruct (B p I) as (g & _ & Fg). rewrite W in J. apply in_map_iff in J as (u & Eu & Iu). pose proof (C43_safe _ _ _ _ U) as Sf. rewrite Forall_forall in Sf. destruct (Sf u Iu) as (base & Eb & _). rewrite <- Eu, Eb in Fg.
  destruct Fg as [Q|[Q|[]]]; apply app_inv_head in Q; unfold mask_file, rgba_file in Q; apply (f_equal (fun x => firstn 3 (rev x))) in Q; change (46 :: txt "wav") with (txt ".wav") in Q; rewrite !rev_app_distr in Q; discriminate Q.
Qed.

(** ** The bytes of the sounds *)
(** The record of a sound (id, name, bytes) as grf writes it (C57). *)
Definition sound_record (s : Z * bytes * bytes) (record : bytes) : Prop :=
  let '(id, name, data) := s in exists b, sound_real_data name data = Some b /\ write_resource id b = Some record.
Definition id_of (s : Z * bytes * bytes) : Z := fst (fst s).
Definition data_of (s : Z * bytes * bytes) : bytes := snd s.
(** What follows the sounds of a file: the end mark, and anything. *)
Definition ending (tail : bytes) : bytes := [0; 0; 0; 0] ++ tail.
Fixpoint read_as (snds : list (Z * bytes * bytes)) (recs : list bytes) (tail : bytes) : list real_sprite :=
  match snds, recs with
  | (i, name, data) :: s, _ :: r => RSound i (data ++ List.concat r ++ ending tail) (len data + 1) name :: read_as s r tail
  | _, _ => []
  end.
Lemma record_not_empty s r : sound_record s r -> r <> [].
Proof.
  destruct s as [[i nm] d]. intros (b & _ & W) ->. unfold write_resource in W. apply bind_some in W as (h & E & W). apply some_inj in W. cbn [concat_opt] in E. unfold pack_I in E. destruct ((_ <=? i) && _); [|discriminate]. cbn [bind] in E. apply bind_some in E as (x & _ & E). apply some_inj in E. subst h. discriminate W.
Qed.
Lemma read_sounds kind tail : forall snds recs, Forall2 sound_record snds recs -> Forall (fun s => 0 < id_of s < 4294967296 /\ kind (id_of s) = KSound) snds ->
  forall n, (List.length snds < n)%nat -> read_reals n kind (List.concat recs ++ ending tail) = Some (read_as snds recs tail).
Proof.
  induction 1 as [|[[i nm] d] r snds recs (b & B & W) F IH]; intros K n L; (destruct n as [|n]; [lia|]); cbn [read_reals List.concat app].
  - reflexivity.
  - inversion K as [|? ? [Ki Kk] K']; subst. unfold id_of in Ki, Kk. cbn [fst] in Ki, Kk. rewrite <- app_assoc. destruct (C57_sound_partial i kind nm d r (List.concat recs ++ ending tail) b Ki Kk B W) as (size & Rd).
    destruct (C57_sound_size_refuted i kind nm d r (List.concat recs ++ ending tail) b Ki Kk B W _ _ _ _ _ Rd) as [Es _]. rewrite Rd. cbn [bind]. rewrite IH; [|exact K'|cbn in L; lia]. cbn [bind read_as]. subst size. reflexivity.
Qed.
Lemma of_other i : forall snds recs tail, ~ In i (map id_of snds) -> sounds_of i (read_as snds recs tail) = [].
Proof.
  induction snds as [|[[j nm] d] snds IH]; intros recs tail N; [reflexivity|]. destruct recs as [|r recs]; [reflexivity|]. cbn [read_as sounds_of flat_map]. destruct (Z.eqb_spec j i) as [->|]; [exfalso; apply N; now left|]. apply IH. intros I. apply N. now right.
Qed.
Lemma of_this tail : forall snds recs, Forall2 sound_record snds recs -> NoDup (map id_of snds) -> forall k s, nth_error snds k = Some s ->
  sounds_of (id_of s) (read_as snds recs tail) = [(data_of s ++ List.concat (skipn (S k) recs) ++ ending tail, len (data_of s) + 1)].
Proof.
  induction 1 as [|[[i nm] d] r snds recs _ F IH]; intros N k s E; [destruct k; discriminate|]. cbn [map] in N. inversion N as [|? ? N1 N2]; subst. cbn [read_as sounds_of flat_map]. destruct k as [|k].
  - apply some_inj in E. subst s. unfold id_of at 1. cbn [fst]. rewrite Z.eqb_refl. cbn [app]. f_equal. apply (of_other _ _ _ _ N1).
  - cbn [nth_error] in E. assert (I : In s snds) by exact (nth_error_In _ _ E). destruct (Z.eqb_spec i (id_of s)) as [Ei|]; [exfalso; apply N1; change (id_of (i, nm, d)) with i; rewrite Ei; apply (in_map id_of), I|]. cbn [app skipn]. exact (IH N2 k s E).
Qed.
Lemma read_sizes : forall snds recs tail i p n nm, In (RSound i p n nm) (read_as snds recs tail) -> 0 <= n.
Proof.
  induction snds as [|[[j m] d] snds IH]; intros recs tail i p n nm I; [destruct I|]. destruct recs as [|r recs]; [destruct I|]. cbn [read_as] in I. destruct I as [E|I]; [|exact (IH _ _ _ _ _ _ I)]. injection E as <- <- <- <-. unfold len. lia.
Qed.
Lemma read_count : forall snds recs tail, (List.length (sounds_in_order (read_as snds recs tail)) <= List.length snds)%nat.
Proof.
  intros snds recs tail. assert (A : (List.length (sounds_in_order (read_as snds recs tail)) = List.length (sounds (read_as snds recs tail)))%nat).
  { unfold sounds_in_order. pose proof (fold_perm Z.eqb sprite_id (read_as snds recs tail) []) as P. cbn [flat_map app] in P. apply (Permutation.Permutation_flat_map (fun s => match s with RSound i pos n name => [(i, pos, n, name)] | _ => [] end)) in P.
    apply Permutation.Permutation_length in P. unfold sounds at 2. etransitivity; [|exact P]. f_equal. generalize (fold_left (fun d s => dict_append Z.eqb d (sprite_id s) s) (read_as snds recs tail) []). intros d. clear. induction d as [|[k m] d IH]; [reflexivity|]. cbn [flat_map snd]. rewrite flat_map_app, IH. reflexivity. }
  rewrite A. clear A. revert recs. induction snds as [|[[j m] d] snds IH]; intros recs; [cbn; lia|]. destruct recs as [|r recs]; [cbn; lia|]. cbn [read_as sounds flat_map app List.length]. specialize (IH recs). unfold sounds in IH. lia.
Qed.
Lemma concat_long snds recs : Forall2 sound_record snds recs -> (List.length snds <= List.length (List.concat recs))%nat.
Proof. induction 1 as [|s r snds recs S F IH]; [cbn; lia|]. cbn [List.concat List.length]. rewrite app_length. apply record_not_empty in S. destruct r; [congruence|]. cbn [List.length]. lia. Qed.

Lemma sounds_kept : forall ascii kind snds recs tail, Forall2 sound_record snds recs ->
  Forall (fun s => 0 < id_of s < 4294967296 /\ kind (id_of s) = KSound) snds -> NoDup (map id_of snds) -> (List.length snds <= 100)%nat ->
  let f := List.concat recs ++ ending tail in
  exists l wavs out, read_reals (S (List.length f)) kind f = Some l /\ save_sounds ascii [] (sounds_in_order l) [] = Some (wavs, out) /\ NoDup (map fst wavs) /\
    forall k s, nth_error snds k = Some s -> exists path, dict_get Z.eqb out (id_of s) = Some path /\
      contents path wavs = Some (data_of s ++ firstn 1 (List.concat (skipn (S k) recs) ++ ending tail)).
Proof.
  intros ascii kind snds recs tail F K N L f. pose proof (concat_long _ _ F) as Lg. pose proof (read_sounds kind tail snds recs F K (S (List.length f)) ltac:(unfold f; rewrite app_length; lia)) as Rd. fold f in Rd.
  set (l := read_as snds recs tail) in *. destruct (C43_total_partial ascii (map s_name (sounds_in_order l)) (txt "wav")) as (us & Us); [rewrite map_length; pose proof (read_count snds recs tail); unfold l; lia|].
  destruct (save_total ascii (sounds_in_order l) [] [] us Us) as (wavs & out & Sv).
  { apply Forall_forall. intros s I. apply sounds_in_all in I as (i & p & n & nm & -> & I). exact (read_sizes _ _ _ _ _ _ _ I). }
  exists l, wavs, out. split; [exact Rd|]. split; [exact Sv|]. destruct (save_result _ _ _ _ Sv) as [Nw G]; [intros i p n nm I; exact (read_sizes _ _ _ _ _ _ _ I)|]. split; [exact Nw|].
  intros k s E. specialize (G (id_of s)). unfold l in G. rewrite (of_this tail snds recs F N k s E) in G. destruct (dict_get Z.eqb out (id_of s)) as [path|]; [|discriminate G]. destruct G as (_ & before & p & n & E1 & E2). exists path. split; [reflexivity|].
  destruct before as [|x before]; [|destruct before; discriminate E1]. cbn [app] in E1. injection E1 as <- <-. rewrite E2. f_equal. unfold len. replace (Z.to_nat (Z.of_nat (List.length (data_of s)) + 1)) with (List.length (data_of s) + 1)%nat by lia. apply firstn_app_2.
Qed.
(** Up to 100 sounds, announced by an action 11, of a file that grf has written
    are all extracted, into files of different names; the file of a sound holds
    its bytes and one byte more, the one that follows the record ... *)
Theorem C77_sounds_partial : forall ascii before r n block after c snds recs tail,
  announced r = Some (Sounds n) -> Forall sound block -> len block <= n -> read_records (before ++ r :: block ++ after) new_ctx = Some c ->
  Forall2 sound_record snds recs ->
  Forall (fun s => 0 < id_of s < 4294967296 /\ In (id_of s) (references block) /\ ~ In (id_of s) (references after)) snds ->
  NoDup (map id_of snds) -> (List.length snds <= 100)%nat ->
  let f := List.concat recs ++ ending tail in
  exists l wavs out, read_reals (S (List.length f)) (kind_of c) f = Some l /\ save_sounds ascii [] (sounds_in_order l) [] = Some (wavs, out) /\ NoDup (map fst wavs) /\
    forall k s, nth_error snds k = Some s -> exists path, dict_get Z.eqb out (id_of s) = Some path /\
      contents path wavs = Some (data_of s ++ firstn 1 (List.concat (skipn (S k) recs) ++ ending tail)).
Proof.
  intros ascii before r n block after c snds recs tail A B C R F K N L f. apply sounds_kept; try assumption.
  apply (Forall_impl _ (fun s K => conj (proj1 K) (f_equal (fun t => match fst t with TGraphics => KGraphics | TSound => KSound | TDefault => KDefault end)
    (C74_sounds before r n block after [] c (id_of s) A B C R (proj1 (proj2 K)) (proj2 (proj2 K))))) K).
Qed.
(** ... so that no sound is extracted unchanged: a grf that is decompiled and
    built again has other sounds, and they grow each time. *)
Theorem C77_sounds_refuted : forall ascii before r n block after c snds recs tail,
  announced r = Some (Sounds n) -> Forall sound block -> len block <= n -> read_records (before ++ r :: block ++ after) new_ctx = Some c ->
  Forall2 sound_record snds recs ->
  Forall (fun s => 0 < id_of s < 4294967296 /\ In (id_of s) (references block) /\ ~ In (id_of s) (references after)) snds ->
  NoDup (map id_of snds) -> (List.length snds <= 100)%nat ->
  let f := List.concat recs ++ ending tail in
  exists l wavs out, read_reals (S (List.length f)) (kind_of c) f = Some l /\ save_sounds ascii [] (sounds_in_order l) [] = Some (wavs, out) /\
    forall s, In s snds -> exists path d, dict_get Z.eqb out (id_of s) = Some path /\ contents path wavs = Some d /\ List.length d = S (List.length (data_of s)).
Proof.
  intros ascii before r n block after c snds recs tail A0 B0 C0 R F K N L f. destruct (C77_sounds_partial ascii before r n block after c snds recs tail A0 B0 C0 R F K N L) as (l & wavs & out & A & B & _ & G). exists l, wavs, out. split; [exact A|]. split; [exact B|]. intros s I.
  apply In_nth_error in I as [k E]. destruct (G k s E) as (path & E1 & E2). exists path. eexists. split; [exact E1|]. split; [exact E2|]. rewrite app_length. destruct (List.concat (skipn (S k) recs)) as [|x y]; cbn [app ending firstn List.length]; lia.
Qed.
(** A sprite of an announced group of graphics is read as graphics. *)
Theorem C77_graphics : forall before r name n block after c i, announced r = Some (Graphics name n) ->
  Forall SpecAnnounce.plain block -> len (references block) <= n -> read_records (before ++ r :: block ++ after) new_ctx = Some c ->
  In i (references block) -> ~ In i (references after) -> kind_of c i = KGraphics.
Proof.
  intros before r name n block after c i A P L R I O. destruct (C74_graphics before r name n block after [] c i A P L R I O) as (g & G & _).
  cbn [count_reals] in G. unfold kind_of. rewrite G. reflexivity.
Qed.

(** A file with a sprite of palette indices, number 2, and a sound, number 1,
    and a place for a sprite it does not have. *)
Definition ex_records : list (Z * bytes) := [(253, [2; 0; 0; 0]); (255, [17; 1; 0]); (253, [1; 0; 0; 0]); (253, [9; 0; 0; 0])].
Definition ex_sound : Z * bytes * bytes := (1, txt "My Horn.wav", [1; 2; 3]).
Definition ex_record : bytes := [1; 0; 0; 0; 18; 0; 0; 0; 255; 255; 11] ++ txt "My Horn.wav" ++ [0; 1; 2; 3].
Definition ex_file : bytes := [2; 0; 0; 0; 13; 0; 0; 0; 4; 0; 1; 0; 2; 0; 0; 0; 0; 0; 2; 7; 8] ++ ex_record ++ [0; 0; 0; 0].
Example C77_record : sound_record ex_sound ex_record. Proof. eexists. split; reflexivity. Qed.
Example C77_example : match decompile (fun s => s) (fun d => len d) (fun a b c => 100 * a + 10 * b + c) ex_records ex_file with
  | Some (images, wavs, text) =>
      map fst images = [txt "resources/misc.png"] /\ wavs = [(txt "resources/my-horn.wav", [1; 2; 3; 0])] /\
      text = txt "misc_png = ImageFile('resources/misc.png')" ++ [10] ++ txt "g.add(FileSprite(misc_png, 5, 5, 2, 1, xofs=0, yofs=0, zoom=ZOOM_NORMAL))" ++ [10; 10]
          ++ txt "g.add(RAWSound('resources/my-horn.wav'))" ++ [10] ++ txt "# Failed to resolve sprite 9" ++ [10] /\
      (do l <- program 2000 text; execute [] l) = Some [Pictures [mk_picture (txt "resources/misc.png", 5, 5, 2, 1) 0 0 0 None]; Sound (txt "resources/my-horn.wav")]
  | None => False
  end.
Proof. vm_compute. repeat split; reflexivity. Qed.
(** It meets the hypotheses. *)
Example C77_hypotheses : forallb (fun b => (0 <=? b) && (b <? 256)) ex_file = true /\ match read_records ex_records new_ctx with
  | Some c => match read_reals (S (List.length ex_file)) (kind_of c) ex_file with
      | Some [RGraphics 2 _ g; RSound 1 _ 4 _] => g_type g = 4
      | _ => False
      end
  | None => False
  end.
Proof. vm_compute. split; reflexivity. Qed.
(** Its records announce the sound. *)
Example C77_announced : announced (255, [17; 1; 0]) = Some (Sounds 1) /\ references [(253, [1; 0; 0; 0])] = [1] /\ references [(253, [9; 0; 0; 0])] = [9].
Proof. split; [reflexivity|split; reflexivity]. Qed.

Print Assumptions C77_runs.
Print Assumptions C77_files.
Print Assumptions C77_sounds_partial.
Print Assumptions C77_sounds_refuted.
Print Assumptions C77_graphics.
