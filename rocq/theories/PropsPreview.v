(** Properties C68 (still previews) and C69 (animated previews). *)
From Coq Require Import ZArith List Bool Lia.
From Verif Require Import Base BaseFacts SpriteModel SpecDecode SpecSprite LibModel SpecLib PaletteData TreeModel SpecTree SpecLayers LayerProofs PreviewModel SpecPreview PreviewProofs GifProofs.
Import ListNotations.
Open Scope Z_scope.

(** C68: the preview has the sprite's size and shows every pixel as the game
    shows it. *)
Theorem C68_shows : forall d img, make_rgba d = Some img ->
  dims (l_h d) (l_w d) img /\
  forall y x v, 0 <= y < l_h d -> 0 <= x < l_w d ->
    pixel_of (mk_picture (l_rgb d) (l_alpha d) (l_mask d)) y x v -> pixel_bytes v -> pixel_at img y x (shown v).
Proof. intros d img E. split; [exact (make_rgba_dims d img E)|]. intros y x v Y X P B. exact (make_rgba_at d img y x v E Y X P B). Qed.

(** There is a preview of every sprite with colours or a mask, unless it has
    both and the mask is empty. *)
Theorem C68_total_partial : forall d,
  shape_ok (l_h d) (l_w d) 3 (l_rgb d) = true -> shape_ok (l_h d) (l_w d) 1 (l_alpha d) = true -> shape_ok (l_h d) (l_w d) 1 (l_mask d) = true ->
  ((exists img, make_rgba d = Some img) <->
   match l_rgb d, l_mask d with
   | None, None => False
   | Some _, Some m => exists r p, In r m /\ In p r /\ 0 < nth 0 p 0
   | _, _ => True end).
Proof.
  intros d R A M. rewrite (make_rgba_iff d R A M). destruct (l_rgb d), (l_mask d) as [m|]; try reflexivity. rewrite existsb_exists. split.
  - intros (r & I & E). apply existsb_exists in E as (p & P & Q). exists r, p. apply Z.ltb_lt in Q. auto.
  - intros (r & p & I & P & Q). exists r. split; [exact I|]. apply existsb_exists. exists p. split; [exact P|]. apply Z.ltb_lt. exact Q.
Qed.
(** A 32bpp sprite with an empty mask cannot be shown. *)
Theorem C68_empty_mask_refuted : make_rgba (mk_layers 1 1 (Some [[[10; 20; 30]]]) (Some [[[255]]]) (Some [[[0]]])) = None.
Proof. reflexivity. Qed.

(** Two pixels, the second in company colours of half brightness. *)
Example C68_case : make_rgba (mk_layers 2 1 (Some [[[10; 20; 30]; [64; 0; 0]]]) (Some [[[255]; [100]]]) (Some [[[0]; [198]]])) =
  Some [[[10; 20; 30; 255]; brightened (palette_entry 198) 64 ++ [100]]] /\ palette_entry 198 = (8, 24, 88) /\
  brightened (palette_entry 198) 64 = [4; 12; 44].
Proof. split; [reflexivity|split; reflexivity]. Qed.
Example C68_meets : exists d img v, make_rgba d = Some img /\ 0 <= 1 < l_w d /\
  pixel_of (mk_picture (l_rgb d) (l_alpha d) (l_mask d)) 0 1 v /\ pixel_bytes v /\ shown v = [4; 12; 44; 100].
Proof.
  exists (mk_layers 2 1 (Some [[[10; 20; 30]; [64; 0; 0]]]) (Some [[[255]; [100]]]) (Some [[[0]; [198]]])). eexists.
  exists (mk_pixel (Some [64; 0; 0]) (Some [100]) (Some [198])). split; [reflexivity|]. split; [cbn; lia|].
  split; [repeat split; eexists; split; reflexivity|]. split; [|reflexivity].
  split; [|split]; cbn [x_rgb x_alpha x_mask]; repeat (apply Forall_cons; [lia|]); apply Forall_nil.
Qed.

(** ** C69 *)

(** An 8bpp sprite with animated colours becomes an animation that repeats
    for ever without a jump; at every tick n every pixel has the colour the
    game's palette animation gives it then, and transparent pixels stay
    transparent. *)
Theorem C69_shows_partial : forall so d mask fs y x m, a_set_order so -> save_gif so d = Some fs -> l_mask d = Some mask ->
  pixel_at mask y x [m] -> 0 <= m < 256 -> ~ 227 <= m <= 231 ->
  (0 < length fs)%nat /\
  forall n, seen fs (Nat.modulo n (length fs)) (Z.to_nat y) (Z.to_nat x) = if m =? 0 then None else Some (animated (8 * Z.of_nat n) m).
Proof.
  intros so d mask fs y x m SO E LM P M NF. destruct (gif_shows so d mask fs y x m SO E LM P M) as [L S]. split; [exact L|].
  intros n. rewrite (S n). destruct ((227 <=? m) && (m <=? 231)) eqn:F; [exfalso; lia|reflexivity].
Qed.

(** Which sprites can be animated: those with an animated colour (other than
    the fizzy drinks) and without radio tower colours. *)
Theorem C69_total_partial : forall so d mask, a_set_order so -> l_rgb d = None -> l_alpha d = None -> l_mask d = Some mask ->
  (exists fs, save_gif so d = Some fs) <->
  ~ occurs mask 239 /\ ~ occurs mask 240 /\ exists m, 232 <= m <= 254 /\ occurs mask m.
Proof. exact gif_iff. Qed.

(** The five colours of fizzy drinks never move. *)
Theorem C69_fizzy_refuted : forall so d mask fs y x m, a_set_order so -> save_gif so d = Some fs -> l_mask d = Some mask ->
  pixel_at mask y x [m] -> 227 <= m <= 231 ->
  (forall n, seen fs (Nat.modulo n (length fs)) (Z.to_nat y) (Z.to_nat x) = Some (palette_entry m)) /\
  exists n, animated (8 * Z.of_nat n) m <> palette_entry m.
Proof.
  intros so d mask fs y x m SO E LM P F. split.
  - destruct (gif_shows so d mask fs y x m SO E LM P ltac:(lia)) as [L S]. intros n. rewrite (S n).
    destruct (Z.eqb_spec m 0); [lia|]. replace ((227 <=? m) && (m <=? 231)) with true by lia. reflexivity.
  - exists 8%nat. assert (H : m = 227 \/ m = 228 \/ m = 229 \/ m = 230 \/ m = 231) by lia.
    destruct H as [->|[->|[->|[->| ->]]]]; intros H; vm_compute in H; discriminate H.
Qed.
(** A sprite with the colours of a radio tower, or without animated colours,
    raises an exception instead. *)
Theorem C69_radio_tower_refuted : forall so d mask, l_rgb d = None -> l_alpha d = None -> l_mask d = Some mask ->
  occurs mask 239 \/ occurs mask 240 -> save_gif so d = None.
Proof.
  intros so d mask R A M O. unfold save_gif. rewrite R, A, M. cbn [bind]. rewrite (proj2 (radio mask) O). reflexivity.
Qed.
Theorem C69_still_refuted : forall so d mask, a_set_order so -> l_rgb d = None -> l_alpha d = None -> l_mask d = Some mask ->
  (forall m, 232 <= m <= 254 -> ~ occurs mask m) -> save_gif so d = None.
Proof.
  intros so d mask SO R A M N. destruct (save_gif so d) as [fs|] eqn:E; [|reflexivity]. exfalso.
  destruct (proj1 (gif_iff so d mask SO R A M) (ex_intro _ fs E)) as (_ & _ & m & B & O). exact (N m B O).
Qed.

(** A sprite with a transparent pixel, a plain colour, fire and glittering
    water: 64 frames. *)
Definition colour_dec (a b : Z * Z * Z) : {a = b} + {a <> b}.
Proof. repeat decide equality. Defined.
Example C69_order_meets : a_set_order (nodup colour_dec).
Proof. intros l. split; [apply NoDup_nodup|intros c; apply nodup_In]. Qed.
Example C69_meets : exists d fs mask, save_gif (nodup colour_dec) d = Some fs /\ l_mask d = Some mask /\
  pixel_at mask 0 3 [250] /\ length fs = 64%nat /\ seen fs 10 0 3 = Some (animated 80 250) /\ animated 80 250 <> animated 0 250 /\
  seen fs 10 0 0 = None /\ seen fs 10 0 1 = Some (palette_entry 5).
Proof.
  set (d := mk_layers 4 1 None None (Some [[[0]; [5]; [233]; [250]]])).
  destruct (proj2 (gif_iff (nodup colour_dec) d [[[0]; [5]; [233]; [250]]] C69_order_meets eq_refl eq_refl eq_refl)) as [fs E].
  { split; [|split]; [| |exists 233; split; [lia|exists [[0]; [5]; [233]; [250]], [233]; cbn; tauto]];
      intros (r & p & [<-|[]] & P & Q); cbn in P; destruct P as [<-|[<-|[<-|[<-|[]]]]]; discriminate Q. }
  exists d, fs, [[[0]; [5]; [233]; [250]]]. split; [exact E|]. split; [reflexivity|]. split; [eexists; split; reflexivity|].
  assert (L : length fs = 64%nat).
  { assert (Q : option_map (@length frame) (save_gif (nodup colour_dec) d) = Some 64%nat) by (vm_compute; reflexivity). rewrite E in Q. cbn in Q. congruence. }
  split; [exact L|].
  assert (S : forall x m, pixel_at [[[0]; [5]; [233]; [250]]] 0 x [m] -> 0 <= m < 256 -> ~ 227 <= m <= 231 ->
     seen fs 10 0 (Z.to_nat x) = if m =? 0 then None else Some (animated 80 m)).
  { intros x m P M N. destruct (C69_shows_partial _ d _ fs 0 x m C69_order_meets E eq_refl P M N) as [_ S]. specialize (S 10%nat). rewrite L in S. exact S. }
  split; [apply (S 3 250); [eexists; split; reflexivity|lia|lia]|]. split; [intros H; vm_compute in H; discriminate H|].
  split; [apply (S 0 0); [eexists; split; reflexivity|lia|lia]|]. apply (S 1 5); [eexists; split; reflexivity|lia|lia].
Qed.

Print Assumptions C68_shows.
Print Assumptions C68_total_partial.
Print Assumptions C68_empty_mask_refuted.
Print Assumptions C69_shows_partial.
Print Assumptions C69_total_partial.
Print Assumptions C69_fizzy_refuted.
Print Assumptions C69_radio_tower_refuted.
Print Assumptions C69_still_refuted.
