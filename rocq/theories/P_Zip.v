(** Lines processed in pieces. *)
From Coq Require Import ZArith List Bool Lia ZifyBool ZifyNat.
From Verif Require Import Base Threads Transform Num Image Gofloat Colors P_Base P_Threads P_Orient.
Import ListNotations.
Local Open Scope Z_scope.

Lemma at0_skipn : forall {A} (z : A) n l j, 0 <= n -> 0 <= j -> at0 z (skipn (Z.to_nat n) l) j = at0 z l (n + j).
Proof. intros A z n l j Hn Hj. unfold at0. rewrite nth_skipn'. f_equal. lia. Qed.
Lemma at0_firstn : forall {A} (z : A) n l j, 0 <= j < n -> at0 z (firstn (Z.to_nat n) l) j = at0 z l j.
Proof. intros A z n l j H. unfold at0. apply nth_firstn'. lia. Qed.
Lemma at0_app_l : forall {A} (z : A) a b j, 0 <= j < zlen a -> at0 z (a ++ b) j = at0 z a j.
Proof. intros A z a b j H. unfold at0. apply app_nth1. unfold zlen in H. lia. Qed.
Lemma at0_app_r : forall {A} (z : A) a b j, zlen a <= j -> at0 z (a ++ b) j = at0 z b (j - zlen a).
Proof. intros A z a b j H. unfold at0, zlen in *. rewrite app_nth2 by lia. f_equal. lia. Qed.

Section Zip.
Context {A B : Type} (za : A) (zb : B) (n m : Z) (f : Z -> list A -> list B -> res (list A)) (pix : Z -> Z -> A).
Hypothesis Hn : 0 < n.
Hypothesis Hm : 0 < m.
Lemma zip_ok : forall w line src, 0 <= w -> zlen line = n * w -> m * w <= zlen src ->
  (forall k o i, 0 <= k < w -> zlen o = n -> zlen i = m -> (forall j, 0 <= j < n -> at0 za o j = at0 za line (k * n + j)) ->
     (forall j, 0 <= j < m -> at0 zb i j = at0 zb src (k * m + j)) ->
     exists o', f k o i = Ok o' /\ zlen o' = n /\ forall j, 0 <= j < n -> at0 za o' j = pix k j) ->
  exists l', zip_chunks (Z.to_nat n) (Z.to_nat m) line src f = Ok l' /\ zlen l' = n * w /\
    forall k j, 0 <= k < w -> 0 <= j < n -> at0 za l' (k * n + j) = pix k j.
Proof.
  intros w line src Hw L1 L2 Hf. unfold zip_chunks.
  assert (G : forall v, 0 <= v -> forall b lin sr, 0 <= b -> b + v = w -> zlen lin = n * v -> m * v <= zlen sr ->
    (forall j, 0 <= j < n * v -> at0 za lin j = at0 za line (b * n + j)) ->
    (forall j, 0 <= j < m * v -> at0 zb sr j = at0 zb src (b * m + j)) ->
    exists l', zip_pieces f b (chunks (Z.to_nat n) lin) (chunks (Z.to_nat m) sr) = Ok l' /\ zlen l' = n * v /\
      forall k j, 0 <= k < v -> 0 <= j < n -> at0 za l' (k * n + j) = pix (b + k) j).
  { refine (natlike_ind _ _ _).
    - intros b lin sr Hb E Ll Ls _ _. assert (lin = []) as -> by (destruct lin; [reflexivity|rewrite zlen_cons in Ll; pose proof (zlen_nonneg lin); lia]).
      exists []. split; [destruct (chunks (Z.to_nat m) sr); reflexivity|]. split; [unfold zlen; cbn; lia|]. intros; lia.
    - intros v Hv IH b lin sr Hb E Ll Ls H1 H2. unfold Z.succ in *.
      rewrite (chunks_cons (Z.to_nat n) lin); [|lia|intros ->; unfold zlen in Ll; cbn in Ll; lia].
      rewrite (chunks_cons (Z.to_nat m) sr); [|lia|intros ->; unfold zlen in Ls; cbn in Ls; nia].
      cbn [zip_pieces].
      assert (Lo : zlen (firstn (Z.to_nat n) lin) = n) by (rewrite zlen_firstn; nia).
      assert (Li : zlen (firstn (Z.to_nat m) sr) = m) by (rewrite zlen_firstn; nia).
      destruct (Hf b (firstn (Z.to_nat n) lin) (firstn (Z.to_nat m) sr)) as [o' [Eo [Lo' No]]]; [lia|exact Lo|exact Li| | |].
      { intros j Hj. rewrite at0_firstn by lia. apply H1. nia. }
      { intros j Hj. rewrite at0_firstn by lia. apply H2. nia. }
      destruct (IH (b + 1) (skipn (Z.to_nat n) lin) (skipn (Z.to_nat m) sr)) as [l' [El [Ll' Nl]]].
      { lia. } { lia. } { rewrite zlen_skipn. nia. } { rewrite zlen_skipn. nia. }
      { intros j Hj. rewrite at0_skipn by lia. rewrite H1 by nia. f_equal. lia. }
      { intros j Hj. rewrite at0_skipn by lia. rewrite H2 by nia. f_equal. lia. }
      rewrite Eo. cbn [bind]. rewrite El. cbn [bind]. exists (o' ++ l'). split; [reflexivity|]. split; [rewrite zlen_app; lia|].
      intros k j Hk Hj. destruct (Z.eq_dec k 0) as [->|Hne].
      + rewrite at0_app_l by lia. rewrite Z.add_0_r. apply No. exact Hj.
      + rewrite at0_app_r by nia. replace (k * n + j - zlen o') with ((k - 1) * n + j) by lia. rewrite Nl by lia. f_equal. lia. }
  destruct (G w Hw 0 line src) as [l' H]; try lia; try (intros; f_equal; lia). exists l'. exact H.
Qed.
End Zip.

(** A line changed piece by piece. *)
Lemma mapM_enumerate : forall {A B} (f : A -> res B) (l : list A) k, mapM (fun '(_, x) => f x) (combine (zrange k (k + zlen l)) l) = mapM f l.
Proof.
  induction l as [|x l IH]; intros k; [destruct (zrange k (k + zlen (@nil A))); reflexivity|].
  rewrite zlen_cons. pose proof (zlen_nonneg l). rewrite zrange_cons by lia. cbn [combine mapM].
  replace (k + (1 + zlen l)) with (k + 1 + zlen l) by lia. rewrite IH. reflexivity.
Qed.
Lemma pieces_par : forall {A} n (f : list A -> res (list A)) line, 0 < n ->
  (ps <- mapM f (chunks (Z.to_nat n) line) ;; Ok (concat ps)) = par_lines n line (fun l _ => f l).
Proof.
  intros A n f line Hn. unfold par_lines. replace (n =? 0) with false by lia. unfold enumerate.
  rewrite <- (mapM_enumerate f (chunks (Z.to_nat n) line) 0). reflexivity.
Qed.
Section Mutate.
Context {M : Mode} {A : Type} (za : A).
Lemma mutate_ok : forall n (f : list A -> res (list A)) buf (pix : Z -> Z -> Z -> A), 0 < n -> 0 < owidth buf -> 0 <= oheight buf -> 0 < ocolors buf ->
  zlen (odata buf) = owidth buf * oheight buf * ocolors buf -> (n | owidth buf * ocolors buf) ->
  (forall r k p, 0 <= r < oheight buf -> 0 <= k -> k * n < owidth buf * ocolors buf -> zlen p = n ->
     (forall j, 0 <= j < n -> at0 za p j = at0 za (odata buf) (r * (owidth buf * ocolors buf) + (k * n + j))) ->
     exists p', f p = Ok p' /\ zlen p' = n /\ forall j, 0 <= j < n -> at0 za p' j = pix r k j) ->
  exists d, mutate_pixels (Z.to_nat n) f buf = Ok (mkop (owidth buf) (oheight buf) (ocolors buf) d) /\
    zlen d = owidth buf * oheight buf * ocolors buf /\
    forall r k j, 0 <= r < oheight buf -> 0 <= k -> k * n < owidth buf * ocolors buf -> 0 <= j < n ->
      at0 za d (r * (owidth buf * ocolors buf) + (k * n + j)) = pix r k j.
Proof.
  intros n f buf pix Hn Hw Hh Hc L [q Q] Hf. unfold mutate_pixels.
  assert (Hw' : 0 < owidth buf * ocolors buf) by nia. remember (owidth buf * ocolors buf) as w eqn:Ew. assert (Hq : 0 < q) by nia.
  destruct (par_lines_ok za w (oheight buf) (odata buf) (fun line _ => ps <- mapM f (chunks (Z.to_nat n) line) ;; Ok (concat ps))
    (fun r i => pix r (i / n) (i mod n))) as [d [E [Ld Nd]]]; [exact Hw'|exact Hh|rewrite L, Ew; ring| |].
  - intros r l Hr Ll Nl. rewrite pieces_par by exact Hn.
    destruct (par_lines_ok za n q l (fun l _ => f l) (fun k j => pix r k j)) as [l' [E' [Ll' Nl']]]; [exact Hn|lia|rewrite Ll, Q; ring| |].
    + intros k p Hk Lp Np. apply Hf; [exact Hr|lia|nia|exact Lp|]. intros j Hj. rewrite Np by exact Hj. apply Nl. nia.
    + exists l'. split; [exact E'|]. split; [nia|]. intros i Hi. pose proof (Z.div_mod i n ltac:(lia)) as D. pose proof (Z.mod_pos_bound i n Hn) as B.
      rewrite D at 1. rewrite (Z.mul_comm n). apply Nl'; [|exact B]. split; [apply Z.div_pos; lia|]. apply Z.div_lt_upper_bound; [lia|]. nia.
  - exists d. rewrite E. cbn [bind]. split; [reflexivity|]. split; [rewrite Ld, Ew; ring|].
    intros r k j Hr Hk Hkn Hj. assert (K : k < q) by (rewrite Q in Hkn; apply Z.mul_lt_mono_pos_r in Hkn; lia). assert (B : 0 <= k * n + j < w).
    { assert (k * n + n <= q * n) by (replace (k * n + n) with ((k + 1) * n) by ring; apply Z.mul_le_mono_nonneg_r; lia). assert (0 <= k * n) by (apply Z.mul_nonneg_nonneg; lia). lia. }
    rewrite Nd by assumption. f_equal; [rewrite Z.div_add_l by lia; rewrite Z.div_small by lia; lia|].
    rewrite Z.add_comm, Z.mod_add by lia. apply Z.mod_small. lia.
Qed.
End Mutate.
