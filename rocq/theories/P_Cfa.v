(** Proofs about the colour filter array. *)
From Coq Require Import String Ascii ZArith List Bool Lia ZifyBool ZifyNat.
From Verif Require Import Base Cfa Spec_Cfa P_Base.
Import ListNotations.
Local Open Scope Z_scope.
Ltac Zify.zify_post_hook ::= Z.div_mod_to_equations.

Definition in48 (r c : Z) : Prop := 0 <= r < 48 /\ 0 <= c < 48.
Lemma pat_get_ok : forall p r c, zlen p = 2304 -> in48 r c -> pat_get p r c = Ok (znth p (r * 48 + c)).
Proof.
  intros p r c L [Hr Hc]. unfold pat_get.
  replace ((0 <=? r) && (r <? 48) && (0 <=? c) && (c <? 48)) with true by lia.
  apply get_ok. lia.
Qed.
Lemma pat_set_ok : forall p r c v, zlen p = 2304 -> in48 r c ->
  exists p', pat_set p r c v = Ok p' /\ zlen p' = 2304 /\
    (forall r' c', in48 r' c' -> znth p' (r' * 48 + c') =
       if (r' =? r) && (c' =? c) then v else znth p (r' * 48 + c')).
Proof.
  intros p r c v L [Hr Hc]. unfold pat_set.
  replace ((0 <=? r) && (r <? 48) && (0 <=? c) && (c <? 48)) with true by lia.
  rewrite upd_ok by lia. eexists. split; [reflexivity|]. split; [rewrite zlen_upd_nat; assumption|].
  intros r' c' [Hr' Hc']. rewrite znth_upd_nat by lia.
  replace (r' * 48 + c' =? r * 48 + c) with ((r' =? r) && (c' =? c)) by lia. reflexivity.
Qed.

Lemma pair_dec : forall x y : Z * Z, {x = y} + {x <> y}.
Proof. decide equality; apply Z.eq_dec. Qed.

(** A loop over cells that stores [v cell] where [v] does not depend on the
    progress of the loop. *)
Lemma cells_loop : forall (body : Z * Z -> list Z -> res (list Z)) (v : Z -> Z -> Z) (I : list Z -> Prop) cells p0,
  (forall r c, In (r, c) cells -> in48 r c) ->
  zlen p0 = 2304 -> I p0 ->
  (forall p r c, I p -> zlen p = 2304 -> In (r, c) cells ->
     exists p', body (r, c) p = Ok p' /\ I p' /\ pat_set p r c (v r c) = Ok p') ->
  exists p', rfold body cells p0 = Ok p' /\ zlen p' = 2304 /\ I p' /\
    (forall r c, in48 r c ->
       (In (r, c) cells -> znth p' (r * 48 + c) = v r c) /\
       (~ In (r, c) cells -> znth p' (r * 48 + c) = znth p0 (r * 48 + c))).
Proof.
  intros body v I cells. induction cells as [|[r c] t IH]; intros p0 Hin L HI Hb.
  - exists p0. cbn [rfold]. split; [reflexivity|]. split; [assumption|]. split; [assumption|].
    intros r c _. split; [intros []|intros _; reflexivity].
  - destruct (Hb p0 r c HI L (or_introl eq_refl)) as [p1 [E1 [I1 S1]]].
    destruct (pat_set_ok p0 r c (v r c) L (Hin r c (or_introl eq_refl))) as [p1' [S1' [L1 N1]]].
    rewrite S1 in S1'. injection S1' as <-.
    destruct (IH p1) as [p' [E' [L' [I' N']]]].
    { intros; apply Hin; right; assumption. } { exact L1. } { exact I1. }
    { intros; apply Hb; try assumption; right; assumption. }
    exists p'. cbn [rfold]. rewrite E1. cbn [bind]. split; [assumption|]. split; [assumption|]. split; [assumption|].
    intros r0 c0 H. split.
    + intros [E|Ht].
      * injection E as <- <-. destruct (in_dec pair_dec (r, c) t) as [Hi|Hn].
        -- apply N'; assumption.
        -- rewrite (proj2 (N' r c H)) by assumption. rewrite N1 by assumption.
           replace ((r =? r) && (c =? c)) with true by lia. reflexivity.
      * apply N'; assumption.
    + intros Hn. rewrite (proj2 (N' r0 c0 H)) by (intros Q; apply Hn; right; exact Q).
      rewrite N1 by assumption.
      destruct ((r0 =? r) && (c0 =? c)) eqn:Q; [|reflexivity].
      exfalso. apply Hn. left. f_equal; lia.
Qed.
Lemma cells48_In : forall r c, In (r, c) cells48 <-> in48 r c.
Proof.
  intros r c. unfold cells48. rewrite in_flat_map. unfold in48. split.
  - intros [x [H1 H2]]. apply in_map_iff in H2. destruct H2 as [y [E H2]]. injection E as <- <-.
    apply zrange_In in H1. apply zrange_In in H2. lia.
  - intros [H1 H2]. exists r. split; [apply zrange_In; lia|]. apply in_map_iff. exists c.
    split; [reflexivity|apply zrange_In; lia].
Qed.

(** ** Letters *)
Lemma bytes_of_length : forall s, zlen (bytes_of s) = Z.of_nat (String.length s).
Proof.
  intros. unfold bytes_of. rewrite zlen_map. unfold zlen. f_equal.
  induction s; cbn; [reflexivity|]. f_equal. assumption.
Qed.
Lemma bytes_of_znth : forall s i, 0 <= i < zlen (bytes_of s) ->
  znth (bytes_of s) i = Z.of_N (N_of_ascii (letter s i)).
Proof.
  intros s i H. unfold bytes_of in *. unfold znth, letter.
  rewrite zlen_map in H. unfold zlen in H.
  rewrite (nth_indep _ 0 (Z.of_N (N_of_ascii "000"%char))) by (rewrite map_length; lia).
  rewrite (map_nth (fun c => Z.of_N (N_of_ascii c))). reflexivity.
Qed.
Lemma cfa_color_plane : forall c,
  cfa_color (Z.of_N (N_of_ascii c)) = match plane c with Some v => Ok v | None => Panic end.
Proof. intros [[] [] [] [] [] [] [] []]; reflexivity. Qed.
Lemma plane_range : forall c v, plane c = Some v -> 0 <= v < 4.
Proof. intros [[] [] [] [] [] [] [] []] v H; cbn in H; try discriminate; injection H as <-; lia. Qed.
Lemma cfa_dims_spec : forall n,
  cfa_dims (Z.of_nat n) = if (n =? 0)%nat then Ok (0, 0) else match dims n with Some d => Ok d | None => Panic end.
Proof.
  intros n. unfold cfa_dims.
  destruct (Z.eqb_spec (Z.of_nat n) 0); [replace n with 0%nat by lia; reflexivity|].
  destruct (Z.eqb_spec (Z.of_nat n) 4); [replace n with 4%nat by lia; reflexivity|].
  destruct (Z.eqb_spec (Z.of_nat n) 36); [replace n with 36%nat by lia; reflexivity|].
  destruct (Z.eqb_spec (Z.of_nat n) 16); [replace n with 16%nat by lia; reflexivity|].
  destruct (Z.eqb_spec (Z.of_nat n) 144); [replace n with 144%nat by lia; reflexivity|].
  replace ((n =? 0)%nat) with false by lia.
  assert (dims n = None) as ->; [|reflexivity].
  unfold dims. do 145 (destruct n as [|n]; [try reflexivity; exfalso; lia|]). reflexivity.
Qed.
Lemma dims_cases : forall n w h, dims n = Some (w, h) ->
  (Z.of_nat n = w * h) /\ (w, h) <> (0,0) /\ In (w, h) [(2,2); (2,8); (6,6); (12,12)].
Proof.
  intros n w h H. unfold dims in H.
  do 145 (destruct n as [|n]; [first [discriminate H | injection H as <- <-; cbn; split; [reflexivity|split; [congruence|tauto]]]|]).
  discriminate H.
Qed.

Lemma combine_split_firstn : forall {A B} (a : list A) (b : list B) k,
  combine (firstn k a) (firstn k b) = firstn k (combine a b).
Proof.
  intros A B a. induction a; intros b k; [destruct k; reflexivity|].
  destruct b, k; try reflexivity. cbn. f_equal. apply IHa.
Qed.

(** The first loop of [CFA::new]: copy the letters in the top left corner. *)
Definition load (w : Z) := (fun '(i, c) (p : list Z) => v <- cfa_color c ;; pat_set p (i / w) (i mod w) v).
Lemma load_loop : forall w h bs k p0, 0 < w <= 48 -> 0 < h <= 48 ->
  0 <= k -> k + zlen bs <= w * h -> zlen p0 = 2304 ->
  (forall i, 0 <= i < zlen bs -> exists v, cfa_color (znth bs i) = Ok v) ->
  exists p, rfold (load w) (combine (zrange k (k + zlen bs)) bs) p0 = Ok p /\ zlen p = 2304 /\
    (forall i, 0 <= i < w * h -> k <= i -> i < k + zlen bs ->
       cfa_color (znth bs (i - k)) = Ok (znth p (i / w * 48 + i mod w))) /\
    (forall i, 0 <= i < w * h -> (i < k \/ k + zlen bs <= i) ->
       znth p (i / w * 48 + i mod w) = znth p0 (i / w * 48 + i mod w)).
Proof.
  intros w h bs. induction bs as [|b bs IH]; intros k p0 Hw Hh Hk Hlen L Hc.
  - exists p0. rewrite zrange_empty by (unfold zlen; cbn; lia). cbn [combine rfold].
    change (zlen (@nil Z)) with 0. split; [reflexivity|]. split; [assumption|]. split; [intros; lia|intros; reflexivity].
  - rewrite zlen_cons in *. pose proof (zlen_nonneg bs).
    rewrite zrange_cons by lia. cbn [combine rfold].
    destruct (Hc 0) as [v Ev]; [lia|]. rewrite znth_cons_0 in Ev.
    assert (P48 : forall i, 0 <= i < w * h -> in48 (i / w) (i mod w)).
    { intros i Hi. split; [split|].
      - apply Z.div_pos; lia.
      - apply Z.div_lt_upper_bound; nia.
      - pose proof (Z.mod_pos_bound i w). lia. }
    destruct (pat_set_ok p0 (k / w) (k mod w) v L) as [p1 [E1 [L1 N1]]]; [apply P48; lia|].
    unfold load at 1. rewrite Ev. cbn [bind]. rewrite E1. cbn [bind].
    destruct (IH (k + 1) p1) as [p [E [Lp [N S]]]]; try assumption; try lia.
    { intros i Hi. destruct (Hc (i + 1)) as [v' Ev']; [lia|].
      rewrite znth_cons_S in Ev' by lia. replace (i + 1 - 1) with i in Ev' by lia. eauto. }
    replace (k + (1 + zlen bs)) with (k + 1 + zlen bs) by lia.
    assert (Inj : forall i, 0 <= i < w * h -> (i / w =? k / w) && (i mod w =? k mod w) = (i =? k)).
    { intros i Hi. pose proof (Z.div_mod i w). pose proof (Z.div_mod k w).
      destruct (Z.eqb_spec i k) as [->|Hne]; [lia|].
      apply andb_false_iff. destruct (Z.eqb_spec (i / w) (k / w)) as [Ed|]; [right|left; reflexivity].
      rewrite Ed in H0. apply Z.eqb_neq. intros Em. rewrite Em in H0. lia. }
    exists p. split; [exact E|]. split; [exact Lp|]. split.
    + intros i Hi H1 H2. destruct (Z.eq_dec i k) as [->|Hne].
      * rewrite S by lia. rewrite N1 by (apply P48; lia). rewrite Inj by lia. rewrite Z.eqb_refl.
        rewrite Z.sub_diag, znth_cons_0. assumption.
      * rewrite znth_cons_S by lia. replace (i - k - 1) with (i - (k + 1)) by lia. apply N; lia.
    + intros i Hi H1. rewrite S by lia. rewrite N1 by (apply P48; lia). rewrite Inj by lia.
      replace (i =? k) with false by lia. reflexivity.
Qed.
Lemma load_fail : forall w h bs k p0, 0 < w <= 48 -> 0 < h <= 48 ->
  0 <= k -> k + zlen bs <= w * h -> zlen p0 = 2304 ->
  (forall i, 0 <= i < zlen bs -> cfa_color (znth bs i) = Panic \/ exists v, cfa_color (znth bs i) = Ok v) ->
  (exists i, 0 <= i < zlen bs /\ cfa_color (znth bs i) = Panic) ->
  rfold (load w) (combine (zrange k (k + zlen bs)) bs) p0 = Panic.
Proof.
  intros w h bs. induction bs as [|b bs IH]; intros k p0 Hw Hh Hk Hlen L Hc [i [Hi Ei]].
  - change (zlen (@nil Z)) with 0 in Hi; lia.
  - rewrite zlen_cons in *. pose proof (zlen_nonneg bs).
    rewrite zrange_cons by lia. cbn [combine rfold]. unfold load at 1.
    destruct (Hc 0) as [E|[v E]]; [lia|rewrite znth_cons_0 in E; rewrite E; reflexivity|].
    rewrite znth_cons_0 in E. rewrite E. cbn [bind].
    destruct (pat_set_ok p0 (k / w) (k mod w) v L) as [p1 [E1 [L1 N1]]].
    { split; [split|].
      - apply Z.div_pos; lia.
      - apply Z.div_lt_upper_bound; nia.
      - pose proof (Z.mod_pos_bound k w). lia. }
    rewrite E1. cbn [bind]. replace (k + (1 + zlen bs)) with (k + 1 + zlen bs) by lia.
    apply IH; try assumption; try lia.
    + intros j Hj. specialize (Hc (j + 1)). rewrite znth_cons_S in Hc by lia.
      replace (j + 1 - 1) with j in Hc by lia. apply Hc; lia.
    + destruct (Z.eq_dec i 0) as [->|Hn]; [rewrite znth_cons_0 in Ei; congruence|].
      exists (i - 1). split; [lia|]. rewrite <- znth_cons_S with (x := b) by lia. assumption.
Qed.

(** The second loop: extend the pattern over the whole matrix, in place. *)
Definition extend (w h : Z) := (fun '(row, col) (p : list Z) =>
  v <- pat_get p (row mod h) (col mod w) ;; pat_set p row col v).
Lemma extend_loop : forall w h p0, 0 < w <= 48 -> 0 < h <= 48 -> zlen p0 = 2304 ->
  exists p, rfold (extend w h) cells48 p0 = Ok p /\ zlen p = 2304 /\
    forall r c, in48 r c -> znth p (r * 48 + c) = znth p0 (r mod h * 48 + c mod w).
Proof.
  intros w h p0 Hw Hh L.
  assert (B : forall r c, in48 (r mod h) (c mod w)).
  { intros r c. pose proof (Z.mod_pos_bound r h). pose proof (Z.mod_pos_bound c w). unfold in48; lia. }
  destruct (cells_loop (extend w h) (fun r c => znth p0 (r mod h * 48 + c mod w))
     (fun p => zlen p = 2304 /\ forall r c, znth p (r mod h * 48 + c mod w) = znth p0 (r mod h * 48 + c mod w))
     cells48 p0) as [p [E [Lp [_ N]]]].
  - intros r c H. apply cells48_In. assumption.
  - assumption.
  - split; [assumption|reflexivity].
  - intros p r c [_ HI] Lp Hin. apply cells48_In in Hin.
    destruct (pat_set_ok p r c (znth p0 (r mod h * 48 + c mod w)) Lp Hin) as [p' [E [L' N]]].
    exists p'. split; [|split; [split|]]; try assumption.
    + unfold extend. rewrite pat_get_ok by (try assumption; apply B). cbn [bind]. rewrite HI. assumption.
    + intros r' c'. rewrite N by apply B.
      destruct ((r' mod h =? r) && (c' mod w =? c)) eqn:Q; [|apply HI].
      apply andb_prop in Q. destruct Q as [Q1 Q2]. apply Z.eqb_eq in Q1. apply Z.eqb_eq in Q2. subst r c.
      rewrite !Z.mod_mod by lia. reflexivity.
  - exists p. split; [assumption|]. split; [assumption|]. intros r c H. apply N; [assumption|].
    apply cells48_In. assumption.
Qed.

Lemma cfa_new_real : forall name w h, dims (String.length name) = Some (w, h) -> known_letters name ->
  exists f, cfa_new name = Ok f /\ cname f = name /\ cwidth f = w /\ cheight f = h /\ zlen (cpat f) = 2304 /\
    forall r c, in48 r c -> plane (letter name ((r mod h) * w + c mod w)) = Some (znth (cpat f) (r * 48 + c)).
Proof.
  intros name w h D K. destruct (dims_cases _ _ _ D) as [E [_ C]].
  assert (Hw : 0 < w <= 48 /\ 0 < h <= 48).
  { cbn in C. intuition (match goal with H : (_, _) = (_, _) |- _ => injection H as <- <- end; lia). }
  destruct Hw as [Hw Hh].
  unfold cfa_new. rewrite bytes_of_length. rewrite cfa_dims_spec.
  replace ((String.length name =? 0)%nat) with false by nia. rewrite D. cbn [bind].
  replace (0 <? w) with true by lia.
  rewrite <- bytes_of_length.
  destruct (load_loop w h (bytes_of name) 0 (zeros (48 * 48)) Hw Hh) as [p1 [E1 [L1 [N1 _]]]].
  { lia. } { rewrite bytes_of_length. lia. } { reflexivity. }
  { intros i Hi. rewrite bytes_of_znth by assumption. rewrite cfa_color_plane.
    destruct (plane (letter name i)) eqn:P; [eauto|]. exfalso. apply (K (letter name i)); [|assumption].
    unfold letter. apply nth_In. unfold bytes_of in Hi. rewrite zlen_map in Hi. unfold zlen in Hi. lia. }
  rewrite Z.add_0_l in E1. fold (load w). fold (extend w h). rewrite E1. cbn [bind].
  destruct (extend_loop w h p1 Hw Hh L1) as [p2 [E2 [L2 N2]]]. rewrite E2. cbn [bind].
  eexists. split; [reflexivity|]. cbn [cname cwidth cheight cpat]. repeat split; try assumption.
  intros r c Hrc. rewrite N2 by assumption.
  pose proof (Z.mod_pos_bound r h). pose proof (Z.mod_pos_bound c w).
  set (i := r mod h * w + c mod w).
  assert (Hi : 0 <= i < w * h) by (unfold i; nia).
  assert (Q1 : i / w = r mod h).
  { unfold i. rewrite Z.div_add_l by lia. rewrite Z.div_small by lia. lia. }
  assert (Q2 : i mod w = c mod w).
  { unfold i. rewrite Z.add_comm, Z.mod_add by lia. apply Z.mod_small. lia. }
  specialize (N1 i Hi). rewrite Q1, Q2 in N1. rewrite bytes_of_length in N1.
  specialize (N1 ltac:(lia) ltac:(lia)). rewrite Z.sub_0_r in N1.
  rewrite bytes_of_znth in N1 by (rewrite bytes_of_length; lia).
  rewrite cfa_color_plane in N1. destruct (plane (letter name i)); [|discriminate]. injection N1 as ->. reflexivity.
Qed.
Lemma cfa_new_empty : cfa_new "" = Ok (mkcfa "" 0 0 (zeros 2304)).
Proof. reflexivity. Qed.
Lemma cfa_new_bad_size : forall name, name <> EmptyString -> dims (String.length name) = None -> cfa_new name = Panic.
Proof.
  intros name Hn D. unfold cfa_new. rewrite bytes_of_length, cfa_dims_spec.
  destruct (Nat.eqb_spec (String.length name) 0) as [E|E].
  - destruct name; [congruence|discriminate].
  - rewrite D. reflexivity.
Qed.
Lemma cfa_new_bad_letter : forall name c, In c (list_ascii_of_string name) -> plane c = None -> cfa_new name = Panic.
Proof.
  intros name c Hin Hp. destruct (dims (String.length name)) as [[w h]|] eqn:D.
  2:{ apply cfa_new_bad_size; [|assumption]. intros ->. destruct Hin. }
  destruct (dims_cases _ _ _ D) as [E [_ C]].
  assert (Hw : 0 < w <= 48 /\ 0 < h <= 48).
  { cbn in C. intuition (match goal with H : (_, _) = (_, _) |- _ => injection H as <- <- end; lia). }
  destruct Hw as [Hw Hh].
  unfold cfa_new. rewrite bytes_of_length. rewrite cfa_dims_spec.
  replace ((String.length name =? 0)%nat) with false by nia. rewrite D. cbn [bind].
  replace (0 <? w) with true by lia.
  rewrite <- bytes_of_length. fold (load w).
  rewrite <- (Z.add_0_l (zlen (bytes_of name))) at 1. rewrite (load_fail w h); [reflexivity|..]; try assumption; try lia.
  - rewrite bytes_of_length. cbn [Z.add]. lia.
  - reflexivity.
  - intros i Hi. rewrite bytes_of_znth by assumption. rewrite cfa_color_plane.
    destruct (plane (letter name i)); [right; eexists; reflexivity|left; reflexivity].
  - apply In_nth with (d := "000"%char) in Hin. destruct Hin as [n [Hn En]].
    exists (Z.of_nat n). assert (R : 0 <= Z.of_nat n < zlen (bytes_of name)).
    { unfold bytes_of. rewrite zlen_map. unfold zlen. lia. }
    split; [exact R|]. rewrite bytes_of_znth by exact R. rewrite cfa_color_plane. unfold letter.
    rewrite Nat2Z.id, En, Hp. reflexivity.
Qed.

Lemma known_dec : forall c, {plane c <> None} + {~ plane c <> None}.
Proof.
  intros c. destruct (plane c); [left; discriminate|right; intros H; apply H; reflexivity].
Qed.

Section Lookups.
Context {M : Mode}.
Lemma color_at_ok : forall f row col, zlen (cpat f) = 2304 -> 0 <= row < 2 ^ 64 - 48 -> 0 <= col < 2 ^ 64 - 48 ->
  color_at f row col = Ok (znth (cpat f) (row mod 48 * 48 + col mod 48)).
Proof.
  intros f row col L Hr Hc. unfold color_at, uadd.
  rewrite !arith_u_ok by p2lia. cbn [bind].
  rewrite pat_get_ok by (try assumption; unfold in48; lia).
  f_equal. f_equal. f_equal; [f_equal|]; lia.
Qed.
Lemma color_at_real : forall name f row col, cfa_new name = Ok f -> pattern_name name ->
  0 <= row < 2 ^ 64 - 48 -> 0 <= col < 2 ^ 64 - 48 ->
  exists v, color_at f row col = Ok v /\ colour name row col = Some v.
Proof.
  intros name f row col E [D K] Hr Hc. destruct (dims (String.length name)) as [[w h]|] eqn:Ed; [|congruence].
  destruct (cfa_new_real name w h Ed K) as [f' [E' [_ [Hw [Hh [L N]]]]]]. rewrite E in E'. injection E' as <-.
  eexists. split; [apply color_at_ok; assumption|].
  unfold colour. rewrite Ed. rewrite <- N by (unfold in48; lia).
  destruct (dims_cases _ _ _ Ed) as [_ [_ C]].
  f_equal. f_equal.
  assert (G : forall x n, In n [2; 6; 8; 12] -> (x mod 48) mod n = x mod n).
  { intros x n Hn. cbn in Hn. repeat destruct Hn as [<-|Hn]; try lia. }
  cbn in C. repeat destruct C as [C|C]; try contradiction; injection C as <- <-; rewrite !G by (cbn; tauto); reflexivity.
Qed.
Lemma color_at_range : forall name f row col, cfa_new name = Ok f ->
  0 <= row < 2 ^ 64 - 48 -> 0 <= col < 2 ^ 64 - 48 ->
  exists v, color_at f row col = Ok v /\ 0 <= v < 4.
Proof.
  intros name f row col E Hr Hc.
  destruct (string_dec name EmptyString) as [->|Hn].
  - rewrite cfa_new_empty in E. injection E as <-.
    rewrite color_at_ok by (try assumption; reflexivity). eexists. split; [reflexivity|].
    cbn [cpat]. rewrite znth_zeros. lia.
  - destruct (dims (String.length name)) as [d|] eqn:D; [|rewrite cfa_new_bad_size in E by assumption; discriminate].
    assert (K : known_letters name).
    { intros c Hin Hp. rewrite (cfa_new_bad_letter name c) in E by assumption. discriminate. }
    destruct (color_at_real name f row col E) as [v [Ev Cv]]; try assumption.
    { split; [congruence|assumption]. }
    exists v. split; [assumption|]. unfold colour in Cv. rewrite D in Cv. destruct d. eapply plane_range; eassumption.
Qed.
Lemma cfa_new_ok_iff : forall name,
  (exists f, cfa_new name = Ok f) <-> (name = EmptyString \/ pattern_name name).
Proof.
  intros name. split.
  - intros [f E]. destruct (string_dec name EmptyString) as [->|Hn]; [left; reflexivity|right]. split.
    + intros D. rewrite cfa_new_bad_size in E by assumption. discriminate.
    + intros c Hin Hp. rewrite (cfa_new_bad_letter name c) in E by assumption. discriminate.
  - intros [->|[D K]]; [eexists; reflexivity|].
    destruct (dims (String.length name)) as [[w h]|] eqn:Ed; [|congruence].
    destruct (cfa_new_real name w h Ed K) as [f [E _]]. eauto.
Qed.
Lemma cfa_new_refuses : forall name, ~ (name = EmptyString \/ pattern_name name) -> cfa_new name = Panic.
Proof.
  intros name H. destruct (string_dec name EmptyString) as [->|Hn]; [tauto|].
  destruct (dims (String.length name)) eqn:D; [|apply cfa_new_bad_size; assumption].
  destruct (Forall_dec (fun c => plane c <> None) known_dec
     (list_ascii_of_string name)) as [F|F].
  - exfalso. apply H. right. split; [congruence|]. intros c Hc. rewrite Forall_forall in F. auto.
  - apply neg_Forall_Exists_neg in F; [|exact known_dec].
    apply Exists_exists in F. destruct F as [c [Hc Hp]]. apply (cfa_new_bad_letter name c Hc).
    destruct (plane c); [exfalso; apply Hp; discriminate|reflexivity].
Qed.
Lemma cfa_new_shape : forall name f, cfa_new name = Ok f -> zlen (cpat f) = 2304 /\ cname f = name.
Proof.
  intros name f E. destruct (proj1 (cfa_new_ok_iff name) (ex_intro _ f E)) as [->|[D K]].
  - rewrite cfa_new_empty in E. injection E as <-. split; reflexivity.
  - destruct (dims (String.length name)) as [[w h]|] eqn:Ed; [|congruence].
    destruct (cfa_new_real name w h Ed K) as [f' [E' [Nm [_ [_ [L _]]]]]]. rewrite E in E'. injection E' as <-. auto.
Qed.
Lemma cfa_new_valid : forall name f, cfa_new name = Ok f -> cfa_is_valid f = negb (name =? "")%string.
Proof.
  intros name f E. destruct (proj1 (cfa_new_ok_iff name) (ex_intro _ f E)) as [->|[D K]].
  - rewrite cfa_new_empty in E. injection E as <-. reflexivity.
  - destruct (dims (String.length name)) as [[w h]|] eqn:Ed; [|congruence].
    destruct (cfa_new_real name w h Ed K) as [f' [E' [Nm [Hw [Hh _]]]]]. rewrite E in E'. injection E' as <-.
    destruct (dims_cases _ _ _ Ed) as [_ [_ C]]. unfold cfa_is_valid. rewrite Hw, Hh.
    destruct (String.eqb_spec name ""%string) as [Q|_]; [rewrite Q in Ed; discriminate Ed|].
    cbn in C. repeat destruct C as [C|C]; try contradiction; injection C as <- <-; reflexivity.
Qed.

Lemma shift_ok : forall f x y, zlen (cpat f) = 2304 -> 0 <= x < 2 ^ 64 - 96 -> 0 <= y < 2 ^ 64 - 96 ->
  exists g, cfa_shift f x y = Ok g /\ zlen (cpat g) = 2304 /\ cwidth g = cwidth f /\ cheight g = cheight f /\
    forall r c, in48 r c -> znth (cpat g) (r * 48 + c) = znth (cpat f) ((r + y) mod 48 * 48 + (c + x) mod 48).
Proof.
  intros f x y L Hx Hy. unfold cfa_shift.
  destruct (cells_loop (fun '(row, col) p => r <- uadd row y ;; c <- uadd col x ;; v <- color_at f r c ;; pat_set p row col v)
     (fun r c => znth (cpat f) ((r + y) mod 48 * 48 + (c + x) mod 48)) (fun _ => True) cells48 (zeros (48 * 48)))
     as [p [E [Lp [_ N]]]].
  - intros. apply cells48_In; assumption.
  - reflexivity.
  - exact I.
  - intros p r c _ Lp Hin. apply cells48_In in Hin.
    destruct (pat_set_ok p r c (znth (cpat f) ((r + y) mod 48 * 48 + (c + x) mod 48)) Lp Hin) as [p' [E _]].
    exists p'. split; [|split; [exact I|assumption]]. unfold in48 in Hin. unfold uadd. p2.
    rewrite !arith_u_ok by p2lia. cbn [bind]. rewrite color_at_ok by (try assumption; p2lia). cbn [bind]. assumption.
  - rewrite E. cbn [bind]. eexists. split; [reflexivity|]. cbn [cpat cwidth cheight].
    repeat split; try assumption. intros r c H. apply N; [assumption|]. apply cells48_In; assumption.
Qed.
Lemma shift_color : forall f g x y row col, zlen (cpat f) = 2304 -> 0 <= x -> 0 <= y -> 0 <= row -> 0 <= col ->
  row + y < 2 ^ 64 - 96 -> col + x < 2 ^ 64 - 96 ->
  cfa_shift f x y = Ok g -> color_at g row col = color_at f (row + y) (col + x).
Proof.
  intros f g x y row col L Hx Hy Hr Hc Hry Hcx E. p2.
  destruct (shift_ok f x y L) as [g' [E' [Lg [_ [_ N]]]]]; [p2lia..|]. rewrite E in E'. injection E' as <-.
  rewrite !color_at_ok by (try assumption; p2lia). rewrite N by (unfold in48; lia). f_equal. f_equal. f_equal; [f_equal|]; lia.
Qed.
Lemma clone_ok : forall f, zlen (cpat f) = 2304 -> cfa_clone f = Ok f.
Proof.
  intros f L. unfold cfa_clone.
  destruct (cells_loop (fun '(row, col) p => v <- pat_get (cpat f) row col ;; pat_set p row col v)
     (fun r c => znth (cpat f) (r * 48 + c)) (fun _ => True) cells48 (zeros (48 * 48)))
     as [p [E [Lp [_ N]]]].
  - intros. apply cells48_In; assumption.
  - reflexivity.
  - exact I.
  - intros p r c _ Lp Hin. apply cells48_In in Hin.
    destruct (pat_set_ok p r c (znth (cpat f) (r * 48 + c)) Lp Hin) as [p' [E _]].
    exists p'. split; [|split; [exact I|assumption]]. rewrite pat_get_ok by assumption. cbn [bind]. assumption.
  - rewrite E. cbn [bind]. destruct f as [nm w h q]. cbn [cname cwidth cheight cpat] in *. f_equal. f_equal.
    apply list_eq_znth; [congruence|]. intros i Hi.
    replace i with (i / 48 * 48 + i mod 48) by lia.
    apply N; [unfold in48; lia|]. apply cells48_In. unfold in48; lia.
Qed.
End Lookups.
