(** Black levels (C50): examples. *)
From Coq Require Import String ZArith List Bool Reals Lia.
From Flocq Require Import Core BinarySingleNaN.
From Verif Require Import Base Num F32 Cfa Camera Image Decoder Spec_Bits Spec_Cfa Spec_Meta P_Base P_Cfa P_Cfa2 P_F32 P_Black.
Import ListNotations.
Local Open Scope Z_scope.
Lemma exact_float : forall (x : f32) z, is_finite x = true -> B2R x = IZR z -> z <> 0 -> Z.abs z <= 2 ^ 24 -> x = f32_of z.
Proof.
  intros x z F E N B. destruct (of_exact z B) as [F' [E' _]]. apply B2R_inj.
  - destruct x; try discriminate F; [|reflexivity]. cbn in E. exfalso. apply N. apply eq_IZR. rewrite <- E. reflexivity.
  - destruct (f32_of z); try discriminate F'; [|reflexivity]. cbn in E'. exfalso. apply N. apply eq_IZR. rewrite <- E'. reflexivity.
  - rewrite E, E'. reflexivity.
Qed.
Lemma float_zero : forall x : f32, is_finite x = true -> B2R x = 0%R -> exists s, x = B754_zero s.
Proof.
  intros x F E. destruct x as [s|s| |s m e Bd]; try discriminate F; [exists s; reflexivity|]. exfalso. cbn in E. apply eq_0_F2R in E. destruct s; discriminate E.
Qed.

Definition is_ok {A} (r : res A) : bool := match r with Ok _ => true | _ => false end.
Lemma camera_made : forall name h v, pattern_name name -> exists cam, cfa_new name = Ok (c_cfa cam) /\ c_blackareah cam = h /\ c_blackareav cam = v.
Proof.
  intros name h v Hf. assert (Hc : is_ok camera_new = true) by (lazy; reflexivity).
  destruct camera_new as [c|m| |]; try discriminate Hc. destruct (proj2 (cfa_new_ok_iff name) (or_intror Hf)) as [f Ef]. rewrite Ef.
  exists (set_cfa f (set_blackareav v (set_blackareah h c))). repeat split.
Qed.

Section Many.
Context {M : Mode}.
Definition bright : list Z := repeat 65533 257.
Definition first_pixels : list (Z * Z) := list_prod [0] (zrange 0 256).
Lemma green_name : pattern_name "GGGG".
Proof. split; [discriminate|]. intros c Hc. cbn in Hc. intuition (subst; discriminate). Qed.
Lemma bright_sums : forall c, 0 <= c < 4 -> sum_of "GGGG" bright 257 first_pixels c = (if c =? 1 then 16776448 else 0) /\
  num_of "GGGG" bright 257 first_pixels c = (if c =? 1 then 256 else 0).
Proof. intros c Hc. assert (c = 0 \/ c = 1 \/ c = 2 \/ c = 3) as [Q|[Q|[Q|Q]]] by lia; subst c; split; vm_compute; reflexivity. Qed.
Lemma last_level : f32_to 0 65535 (fdiv (fadd (f32_of 16776448) (f32_of 65533)) (fadd (f32_of 256) (flit 1 1))) = 65532.
Proof. vm_compute. reflexivity. Qed.
Lemma bright_samples : samples bright.
Proof. apply Forall_forall. intros x Hx. apply repeat_spec in Hx. subst x. unfold sample. lia. Qed.
Lemma get4_01 : forall {A} (v : vec4 A), get4 v 1 = Ok (at4 v 1).
Proof. reflexivity. Qed.
Lemma set4_01 : forall {A} (v : vec4 A) x, exists v', set4 v 1 x = Ok v' /\ forall i, 0 <= i < 4 -> at4 v' i = if i =? 1 then x else at4 v i.
Proof. intros A v x. eexists; split; [reflexivity|]. intros i Hi; assert (i = 0 \/ i = 1 \/ i = 2 \/ i = 3) as [E|[E|[E|E]]] by lia; subst i; reflexivity. Qed.
Lemma rounded : forall cam, cfa_new "GGGG" = Ok (c_cfa cam) -> c_blackareah cam = (0, 1) -> c_blackareav cam = (0, 0) ->
  exists b, black_levels cam 257 1 bright = Ok b /\ at4 b 1 = 65532.
Proof.
  intros cam Hf Eh Ev. unfold black_levels. rewrite Eh, Ev. change (negb (1 =? 0) || negb (0 =? 0)) with true. cbv iota zeta.
  rewrite (rfold_prod (fun row col => black_pixel (c_cfa cam) bright 257 row col) (zrange 0 (0 + 1)) (zrange 0 257)).
  assert (EP : list_prod (zrange 0 (0 + 1)) (zrange 0 257) = first_pixels ++ [(0, 256)]) by (vm_compute; reflexivity). rewrite EP. clear EP.
  rewrite rfold_app.
  destruct (pixels_ok "GGGG" (c_cfa cam) bright 257 1 green_name Hf) with (ps := first_pixels) (done := @nil (Z * Z)) (st := (all4 (f32_of 0), all4 (f32_of 0))) as [[avg count] [E [HA HC]]].
  { reflexivity. } { exact bright_samples. } { lia. } { lia. }
  { apply Forall_forall. intros [r k] Hp. apply in_prod_iff in Hp. destruct Hp as [A B]. apply zrange_In in B. destruct A as [<-|[]]. unfold inside. cbn [fst snd]. lia. }
  { intros c Hc. cbn [app]. destruct (bright_sums c Hc) as [-> ->]. destruct (c =? 1); lia. }
  { intros c Hc. unfold all4, at4. cbn [fst e0 e1 e2 e3]. destruct (c =? 0), (c =? 1), (c =? 2); split; reflexivity. }
  { intros c Hc. unfold all4, at4. cbn [snd e0 e1 e2 e3]. destruct (c =? 0), (c =? 1), (c =? 2); split; reflexivity. }
  rewrite E. cbn [bind rfold app fst snd] in *.
  destruct (HA 1 ltac:(lia)) as [F1 V1]. destruct (HC 1 ltac:(lia)) as [F2 V2]. destruct (bright_sums 1 ltac:(lia)) as [S1 S2]. rewrite S1 in V1. rewrite S2 in V2. cbn [Z.eqb Pos.eqb] in V1, V2.
  pose proof (exact_float _ _ F1 V1 ltac:(lia) ltac:(lia)) as X1. pose proof (exact_float _ _ F2 V2 ltac:(lia) ltac:(lia)) as X2.
  unfold black_pixel at 1.
  destruct (color_at_63 "GGGG" (c_cfa cam) 0 256 green_name Hf ltac:(lia) ltac:(lia)) as [c [Ec Es]]. assert (c = 1) by (vm_compute in Es; congruence). subst c. rewrite Ec. cbn [bind].
  assert (EG : get bright (0 * 257 + 256) = Ok 65533) by (vm_compute; reflexivity). rewrite EG. cbn [bind].
  rewrite (get4_01 avg). cbn [bind]. destruct (set4_01 avg (fadd (at4 avg 1) (f32_of 65533))) as [avg' [E1 A1]]. rewrite E1. cbn [bind].
  rewrite (get4_01 count). cbn [bind]. destruct (set4_01 count (fadd (at4 count 1) (flit 1 1))) as [count' [E2 A2]]. rewrite E2. cbn [bind].
  rewrite (zrange_empty 0 (0 + 0)) by lia. change (zrange 0 1) with [0]. cbn [rfold bind]. eexists. split; [reflexivity|].
  change (f32_to 0 65535 (fdiv (at4 avg' 1) (at4 count' 1)) = 65532). rewrite (A1 1), (A2 1) by lia. cbn [Z.eqb Pos.eqb]. rewrite X1, X2. exact last_level.
Qed.
End Many.

Theorem rounded_levels : forall M : Mode, exists name cam image,
  pattern_name name /\ cfa_new name = Ok (c_cfa cam) /\ length image = 257%nat /\ samples image /\
  c_blackareah cam = (0, 1) /\ c_blackareav cam = (0, 0) /\
  mean (measured name image 257 (masked 257 1 (0, 1) (0, 0)) 1) = 65533 /\
  exists b, black_levels cam 257 1 image = Ok b /\ at4 b 1 = 65532.
Proof.
  intros M. destruct (camera_made "GGGG" (0, 1) (0, 0) green_name) as [cam [Hf [Eh Ev]]].
  exists "GGGG"%string, cam, bright.
  split; [exact green_name|]. split; [exact Hf|]. split; [reflexivity|]. split; [exact bright_samples|]. split; [exact Eh|]. split; [exact Ev|].
  split; [vm_compute; reflexivity|]. apply rounded; assumption.
Qed.
Lemma rggb_name : pattern_name "RGGB".
Proof. split; [discriminate|]. intros c Hc. cbn in Hc. intuition (subst; discriminate). Qed.
(** RGGB, four columns and two rows; the first row and the first column are masked. *)
Lemma small_levels : forall M : Mode, exists cam b, cfa_new "RGGB" = Ok (c_cfa cam) /\ c_blackareah cam = (0, 1) /\ c_blackareav cam = (0, 1) /\
  black_levels cam 4 2 [10; 20; 30; 40; 50; 60; 70; 81] = Ok b /\
  (at4 b 0, at4 b 1, at4 b 2, at4 b 3) = (16, 36, 0, 0).
Proof.
  intros M. destruct (camera_made "RGGB" (0, 1) (0, 1) rggb_name) as [cam [Hf [Eh Ev]]].
  pose proof (black_levels_ok "RGGB" cam 4 2 [10; 20; 30; 40; 50; 60; 70; 81]) as H. rewrite Eh, Ev in H.
  destruct H as [b [E A]].
  - exact rggb_name.
  - exact Hf. - reflexivity. - unfold samples. repeat (apply Forall_cons; [unfold sample; lia|]). apply Forall_nil.
  - lia. - lia. - lia. - lia. - lia. - lia. - lia. - lia. - left. lia.
  - intros c Hc. assert (c = 0 \/ c = 1 \/ c = 2 \/ c = 3) as [Q|[Q|[Q|Q]]] by lia; subst c; split; vm_compute; congruence.
  - exists cam, b. rewrite !A by lia. split; [exact Hf|]. split; [exact Eh|]. split; [exact Ev|]. split; [exact E|]. vm_compute. reflexivity.
Qed.
