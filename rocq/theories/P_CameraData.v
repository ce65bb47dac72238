(** Proofs about the shipped camera database: a checker for declarations, loading
    and repeated keys. *)
From Coq Require Import String Ascii ZArith List Bool Lia FMapPositive.
From Verif Require Import Base Num F32 Cfa Camera CameraData Spec_Cfa Spec_Camera Spec_CameraData P_Base P_Cfa P_Camera P_Camera2 P_Camera3.
Import ListNotations.
Local Open Scope Z_scope.
Local Open Scope string_scope.

(** ** Loading *)
Lemma each_ok : forall {S} (f : Z -> value -> S -> res S) l i s,
  (forall j v s, i <= j < i + zlen l -> In v l -> exists s', f j v s = Ok s') -> exists s', each f i l s = Ok s'.
Proof.
  intros S f. induction l as [| v l IH]; intros i s H; [exists s; reflexivity |].
  cbn [each]. destruct (H i v s ltac:(unfold zlen; cbn [List.length]; lia) (or_introl eq_refl)) as [s' ->]. cbn.
  apply IH. intros j w s1 Hj Hw. apply H; [unfold zlen in *; cbn [List.length]; lia | right; exact Hw].
Qed.
Lemma in_text : forall l, (forall x, In x l -> is_text x) -> exists r, mapM as_str l = Ok r.
Proof.
  induction l as [| x l IH]; intros H; [exists []; reflexivity |].
  destruct (H x (or_introl eq_refl)) as [s ->]. destruct (IH (fun y I => H y (or_intror I))) as [r E].
  cbn. rewrite E. cbn. eauto.
Qed.
Lemma set_fits : forall k v c, fits k v -> exists c', set_attr k v c = Ok c'.
Proof.
  intros k v c F. destruct F as [k v I [s ->] | k v I [n [-> _]] | k v I L | v L | v L | s P | k v I [n [-> _]] | v L].
  - cbn in I. repeat destruct I as [<- | I]; try contradiction; unfold set_attr; cbn; eauto.
  - cbn in I. repeat destruct I as [<- | I]; try contradiction; unfold set_attr; cbn; eauto.
  - destruct L as [l [-> [Hl He]]]. destruct l as [| a [| b [| ? ?]]]; try discriminate.
    destruct (He a (or_introl eq_refl)) as [x [-> _]]. destruct (He b (or_intror (or_introl eq_refl))) as [y [-> _]].
    cbn in I. repeat destruct I as [<- | I]; try contradiction; (eexists; unfold set_attr; cbn; change (Pos.to_nat 1) with 1%nat; reflexivity).
  - destruct L as [l [-> [Hl He]]]. unfold set_attr. cbn - [crops_of]. unfold crops_of. cbn [as_array bind].
    destruct (each_ok (fun i v c => x <- as_integer v ;; set4 c i (as_u64 x)) l 0 (c_crops c)) as [r E].
    + intros j v s Hj Hv. destruct (He v Hv) as [x [-> _]]. cbn. unfold zlen in Hj. rewrite Hl in Hj.
      assert (A : j = 0 \/ j = 1 \/ j = 2 \/ j = 3) by lia.
      destruct A as [-> | [-> | [-> | ->]]]; cbn; eauto.
    + rewrite E. cbn. eauto.
  - destruct L as [l [-> [Hl He]]]. unfold set_attr. cbn - [matrix_of]. unfold matrix_of. cbn [as_array bind].
    match goal with |- exists c', (m <- each ?f 0 l ?s ;; _) = Ok c' => destruct (each_ok f l 0 s) as [r E] end.
    + intros j v s Hj Hv. destruct (He v Hv) as [x [-> _]]. unfold zlen in Hj. 
      assert (A : 0 <= j < 12) by (destruct Hl as [Hl | Hl]; rewrite Hl in Hj; lia).
      assert (B : j / 3 = 0 \/ j / 3 = 1 \/ j / 3 = 2 \/ j / 3 = 3) by (pose proof (Z.div_mod j 3 ltac:(lia)); pose proof (Z.mod_pos_bound j 3 ltac:(lia)); lia).
      assert (C : j mod 3 = 0 \/ j mod 3 = 1 \/ j mod 3 = 2) by (pose proof (Z.mod_pos_bound j 3 ltac:(lia)); lia).
      cbn [as_integer].
      destruct B as [-> | [-> | [-> | ->]]]; destruct C as [-> | [-> | ->]]; unfold get4, set3, set4; cbn; eauto.
    + rewrite E. cbn. eauto.
  - unfold set_attr. cbn - [cfa_new]. destruct (proj2 (cfa_new_ok_iff s) (or_intror P)) as [f ->]. cbn. eauto.
  - cbn in I. repeat destruct I as [<- | I]; try contradiction; unfold set_attr; cbn; eauto.
  - destruct L as [l [-> [_ He]]]. unfold set_attr. cbn. destruct (in_text l He) as [r ->]. cbn. eauto.
Qed.
Lemma set_structure : forall k v c, fits_structure k v -> set_attr k v c = Ok c.
Proof. intros k v c [[-> _] | [-> _]]; reflexivity. Qed.
Lemma update_ok : forall t c, (forall k v, In (k, v) t -> fits k v \/ fits_structure k v) -> exists c', update_from_toml c t = Ok c'.
Proof.
  induction t as [| [k v] t IH]; intros c H; [exists c; reflexivity |].
  unfold update_from_toml. cbn [rfold].
  assert (A : exists c1, set_attr k v c = Ok c1).
  { destruct (H k v (or_introl eq_refl)) as [F | F]; [apply set_fits, F | exists c; apply set_structure, F]. }
  destruct A as [c1 ->]. cbn. apply IH. intros. apply H. right. assumption.
Qed.
Lemma mapM_ok : forall {A B} (f : A -> res B) l, (forall x, In x l -> exists y, f x = Ok y) -> exists r, mapM f l = Ok r.
Proof.
  intros A B f. induction l as [| x l IH]; intros H; [exists []; reflexivity |].
  cbn. destruct (H x (or_introl eq_refl)) as [y ->]. cbn. destruct (IH (fun z I => H z (or_intror I))) as [r ->]. cbn. eauto.
Qed.
Lemma written_in : forall t k v, written t k = Some v -> In (k, v) t.
Proof.
  unfold written. induction t as [| [k' v'] t IH]; cbn; intros k v H; [discriminate |].
  destruct (String.eqb_spec k' k) as [-> | N]; [cbn in H; injection H as ->; left; reflexivity | right; apply IH, H].
Qed.
Lemma fits_name : forall k v, fits k v -> k <> "modes" /\ k <> "model_aliases".
Proof.
  intros k v F; destruct F as [k v I ? | k v I ? | k v I ? | | | | k v I ? |]; try (split; discriminate);
    cbn in I; repeat destruct I as [<- | I]; try contradiction; split; discriminate.
Qed.
Lemma load_ok : forall db, fine db -> exists l, loader_new db = Ok l.
Proof.
  intros db [F1 [F2 [F3 T]]]. unfold loader_new.
  destruct (mapM_ok declared db) as [r E]; [| rewrite E; cbn; eauto].
  intros ct Ict. unfold declared.
  assert (HM : exists l, modes_of ct = Ok l /\ forall m, In m l -> In m (tl (modes ct))).
  { unfold modes_of. rewrite tget_written. destruct (written ct "modes") as [v |] eqn:W; [| exists []; split; [reflexivity | intros m []]].
    destruct (F1 ct Ict _ _ (written_in _ _ _ W)) as [F | [[N _] | [_ [l [-> [_ L]]]]]].
    - exfalso. apply fits_name in F. tauto.
    - discriminate.
    - cbn [as_array bind]. destruct (mapM_ok as_table l) as [ts Ets].
      { intros x Ix. destruct (L x Ix) as [t ->]. exists t. reflexivity. }
      exists ts. split; [exact Ets |].
      assert (Em : modes_of ct = Ok ts) by (unfold modes_of; rewrite tget_written, W; exact Ets).
      apply modes_spec in Em. intros m Im. rewrite <- Em. exact Im. }
  destruct HM as [l [-> HM]]. cbn [bind].
  unfold camera_new. destruct (proj2 (cfa_new_ok_iff "") (or_introl eq_refl)) as [f0 ->]. cbn [bind].
  match goal with |- exists y, (cam <- update_from_toml ?c ct ;; _) = Ok y => destruct (update_ok ct c (F1 ct Ict)) as [cam ->] end.
  cbn [bind].
  assert (HA : exists al, aliases_of ct = Ok al).
  { unfold aliases_of. rewrite tget_written. destruct (written ct "model_aliases") as [v |] eqn:W; [| eauto].
    destruct (F1 ct Ict _ _ (written_in _ _ _ W)) as [F | [[_ [l' [-> [_ L]]]] | [N _]]].
    - exfalso. apply fits_name in F. tauto.
    - cbn [as_array bind]. apply mapM_ok. intros x Ix. destruct (L x Ix) as [p [-> [Hp Hs]]].
      destruct p as [| a [| b [| ? ?]]]; try discriminate.
      destruct (Hs a (or_introl eq_refl)) as [sa ->]. destruct (Hs b (or_intror (or_introl eq_refl))) as [sb ->].
      exists (sa, sb). reflexivity.
    - discriminate. }
  destruct HA as [al ->]. cbn [bind].
  match goal with |- exists y, (cams <- mapM ?g ?ns ;; _) = Ok y => destruct (mapM_ok g ns) as [r Er]; [| rewrite Er; cbn; eauto] end.
  intros [mo cm] _. apply mapM_ok. intros m [<- | Im].
  - destruct (update_ok ct cam (F1 ct Ict)) as [c' ->]. cbn. eauto.
  - destruct (update_ok m cam) as [c' ->]; [| cbn; eauto].
    intros k v I. left. exact (F2 ct Ict m (HM m Im) k v I).
Qed.

(** ** The checker *)
Definition mem (k : string) (l : list string) : bool := existsb (String.eqb k) l.
Lemma mem_in : forall k l, mem k l = true -> In k l.
Proof. intros k l H. apply existsb_exists in H. destruct H as [x [I E]]. apply String.eqb_eq in E. subst. exact I. Qed.
Definition textb (v : value) : bool := match v with VStr _ => true | _ => false end.
Definition numberb (lo hi : Z) (v : value) : bool := match v with VInt n => Z.leb lo n && Z.leb n hi | _ => false end.
Definition listb (len : nat -> bool) (each : value -> bool) (v : value) : bool :=
  match v with VArr l => len (List.length l) && forallb each l | _ => false end.
Lemma textb_ok : forall v, textb v = true -> is_text v.
Proof. intros [s | | |] H; try discriminate. exists s. reflexivity. Qed.
Lemma numberb_ok : forall lo hi v, numberb lo hi v = true -> is_number lo hi v.
Proof. intros lo hi [| n | |] H; try discriminate. cbn in H. exists n. split; [reflexivity | lia]. Qed.
Lemma listb_ok : forall (P : nat -> Prop) (E : value -> Prop) p e, (forall n, p n = true -> P n) -> (forall v, e v = true -> E v) ->
  forall v, listb p e v = true -> is_list P E v.
Proof.
  intros P E p e HP HE [| | l |] H; try discriminate. cbn in H. apply andb_true_iff in H. destruct H as [H1 H2].
  exists l. split; [reflexivity |]. split; [apply HP, H1 |]. intros x I. apply HE. rewrite forallb_forall in H2. apply H2, I.
Qed.
Definition pattern_nameb (s : string) : bool :=
  match dims (String.length s) with
  | Some _ => forallb (fun c => match plane c with Some _ => true | None => false end) (list_ascii_of_string s)
  | None => false
  end.
Lemma pattern_nameb_ok : forall s, pattern_nameb s = true -> pattern_name s.
Proof.
  intros s H. unfold pattern_nameb in H. split; destruct (dims (String.length s)); try discriminate.
  intros c I. rewrite forallb_forall in H. specialize (H c I). destruct (plane c); [discriminate | discriminate].
Qed.
Definition fitsb (k : string) (v : value) : bool :=
  if mem k ["make"; "model"; "mode"; "clean_make"; "clean_model"] then textb v
  else if mem k ["whitepoint"; "blackpoint"] then numberb 0 65535 v
  else if mem k ["blackareah"; "blackareav"] then listb (Nat.eqb 2) (numberb 0 big) v
  else if String.eqb k "crops" then listb (Nat.eqb 4) (numberb 0 big) v
  else if String.eqb k "color_matrix" then listb (fun n => Nat.eqb n 9 || Nat.eqb n 12) (numberb (- big) big) v
  else if String.eqb k "color_pattern" then match v with VStr s => pattern_nameb s | _ => false end
  else if mem k ["bps"; "wb_offset"; "filesize"; "raw_width"; "raw_height"] then numberb 0 big v
  else if String.eqb k "hints" then listb (fun _ => true) textb v
  else false.
Lemma fitsb_ok : forall k v, fitsb k v = true -> fits k v.
Proof.
  intros k v H. unfold fitsb in H.
  repeat match type of H with
  | (if mem ?k ?l then _ else _) = true => destruct (mem k l) eqn:?
  | (if String.eqb ?k ?l then _ else _) = true => destruct (String.eqb_spec k l) as [-> |]
  | context [mem ?k ?l] => destruct (mem k l) eqn:?
  end; try discriminate.
  - apply fits_text; [apply mem_in; assumption | apply textb_ok, H].
  - apply fits_level; [apply mem_in; assumption | apply numberb_ok, H].
  - apply fits_area; [apply mem_in; assumption |]. revert H. apply listb_ok; [| apply numberb_ok].
    intros n0 E. apply Nat.eqb_eq in E. auto.
  - apply fits_crops. revert H. apply listb_ok; [| apply numberb_ok]. intros n0 E. apply Nat.eqb_eq in E. auto.
  - apply fits_matrix. revert H. apply listb_ok; [| apply numberb_ok].
    intros n0 E. apply orb_true_iff in E. rewrite !Nat.eqb_eq in E. exact E.
  - destruct v; try discriminate. apply fits_pattern, pattern_nameb_ok, H.
  - apply fits_size; [apply mem_in; assumption | apply numberb_ok, H].
  - apply fits_hints. revert H. apply listb_ok; [trivial | apply textb_ok].
Qed.
Definition structureb (k : string) (v : value) : bool :=
  if String.eqb k "model_aliases" then listb (fun _ => true) (listb (Nat.eqb 2) textb) v
  else if String.eqb k "modes" then listb (fun _ => true) (fun m => match m with VTable _ => true | _ => false end) v
  else false.
Lemma structureb_ok : forall k v, structureb k v = true -> fits_structure k v.
Proof.
  intros k v H. unfold structureb in H.
  destruct (String.eqb_spec k "model_aliases") as [-> | _]; [| destruct (String.eqb_spec k "modes") as [-> | _]; [| discriminate]].
  - left. split; [reflexivity |]. revert H. apply listb_ok; [trivial |]. apply listb_ok; [| apply textb_ok].
    intros n0 E. apply Nat.eqb_eq in E. auto.
  - right. split; [reflexivity |]. revert H. apply listb_ok; [trivial |]. intros [| | | t] E; try discriminate. eauto.
Qed.
Fixpoint uniqueb (l : list string) : bool :=
  match l with [] => true | k :: t => negb (mem k t) && uniqueb t end.
Lemma uniqueb_ok : forall l, uniqueb l = true -> NoDup l.
Proof.
  induction l as [| k l IH]; cbn; intros H; [constructor |]. apply andb_true_iff in H. destruct H as [H1 H2].
  constructor; [| apply IH, H2]. intro I. apply negb_true_iff in H1.
  assert (mem k l = true); [| congruence]. apply existsb_exists. exists k. split; [exact I | apply String.eqb_refl].
Qed.
Definition needed : list string := ["make"; "model"; "clean_make"; "clean_model"; "color_matrix"; "color_pattern"].
Definition ct_fine (ct : table) : bool :=
  forallb (fun p => fitsb (fst p) (snd p) || structureb (fst p) (snd p)) ct &&
  forallb (fun m => forallb (fun p => fitsb (fst p) (snd p)) m) (tl (modes ct)) &&
  forallb (fun k => match written ct k with Some _ => true | None => false end) needed &&
  forallb (fun m => uniqueb (map fst m)) (modes ct).
Lemma fine_ok : forall db, forallb ct_fine db = true -> fine db.
Proof.
  intros db H. rewrite forallb_forall in H. unfold ct_fine in H.
  repeat split; intros ct.
  - intros I k v Ik. specialize (H ct I). rewrite !andb_true_iff in H. destruct H as [[[H _] _] _].
    rewrite forallb_forall in H. specialize (H _ Ik). apply orb_true_iff in H. cbn in H.
    destruct H as [H | H]; [left; apply fitsb_ok, H | right; apply structureb_ok, H].
  - intros I m Im k v Ik. specialize (H ct I). rewrite !andb_true_iff in H. destruct H as [[[_ H] _] _].
    rewrite forallb_forall in H. specialize (H _ Im). rewrite forallb_forall in H. specialize (H _ Ik). apply fitsb_ok, H.
  - intros I k Ik. specialize (H ct I). rewrite !andb_true_iff in H. destruct H as [[_ H] _].
    rewrite forallb_forall in H. specialize (H k Ik). intro E. rewrite E in H. discriminate.
  - intros m I Im. specialize (H ct I). rewrite !andb_true_iff in H. destruct H as [_ H].
    rewrite forallb_forall in H. apply uniqueb_ok, (H m Im).
Qed.

(** ** Repeated keys *)
(** Strings as positive numbers, followed by something else. *)
Definition bit (b : bool) (p : positive) : positive := if b then xI p else xO p.
Fixpoint enc (s : string) (k : positive) : positive :=
  match s with
  | EmptyString => xO k
  | String (Ascii a b c d e f g h) s => xI (bit a (bit b (bit c (bit d (bit e (bit f (bit g (bit h (enc s k)))))))))
  end.
Lemma bit_inj : forall a b p q, bit a p = bit b q -> a = b /\ p = q.
Proof. intros [] [] p q H; cbn in H; try discriminate; injection H as ->; auto. Qed.
Lemma enc_inj : forall s t p q, enc s p = enc t q -> s = t /\ p = q.
Proof.
  induction s as [| [a b c d e f g h] s IH]; intros [| [a' b' c' d' e' f' g' h'] t] p q H; cbn [enc] in H; try discriminate.
  - injection H as ->. auto.
  - assert (H1 := f_equal (fun p => match p with xI p => p | _ => p end) H). cbn beta iota in H1. clear H.
    repeat (apply bit_inj in H1; destruct H1 as [? H1]). apply IH in H1. destruct H1 as [-> ->]. subst. auto.
Qed.
Definition enc_key (k : string * string * string) : positive := let '(a, b, c) := k in enc b (enc a (enc c xH)).
Lemma enc_key_inj : forall k k', enc_key k = enc_key k' -> k = k'.
Proof.
  intros [[a b] c] [[a' b'] c'] H. unfold enc_key in H.
  apply enc_inj in H. destruct H as [-> H]. apply enc_inj in H. destruct H as [-> H]. apply enc_inj in H. destruct H as [-> _]. reflexivity.
Qed.
Fixpoint dups (l : list (string * string * string)) (seen : PositiveMap.t unit) : list (string * string * string) :=
  match l with
  | [] => []
  | k :: t => let e := enc_key k in
              if PositiveMap.mem e seen then k :: dups t seen else dups t (PositiveMap.add e tt seen)
  end.
Lemma dups_seen : forall l seen k, PositiveMap.mem (enc_key k) seen = true -> In k l -> In k (dups l seen).
Proof.
  induction l as [| x l IH]; intros seen k S I; [destruct I |]. cbn [dups]. cbv zeta.
  destruct I as [-> | I].
  - rewrite S. left. reflexivity.
  - destruct (PositiveMap.mem (enc_key x) seen); [right; apply IH; assumption |]. apply IH; [| exact I].
    rewrite PositiveMap.mem_find in *. destruct (Pos.eq_dec (enc_key k) (enc_key x)) as [-> | N].
    + rewrite PositiveMap.gss. reflexivity.
    + rewrite PositiveMap.gso by exact N. exact S.
Qed.
Lemma dups_spec : forall l seen i j k, (i < j)%nat -> nth_error l i = Some k -> nth_error l j = Some k -> In k (dups l seen).
Proof.
  induction l as [| x l IH]; intros seen i j k Hij Hi Hj; [destruct i; discriminate |].
  destruct j as [| j]; [lia |]. cbn [nth_error] in Hj. destruct i as [| i].
  - cbn in Hi. injection Hi as ->. apply nth_error_In in Hj. cbn [dups]. cbv zeta.
    destruct (PositiveMap.mem (enc_key k) seen) eqn:E; [left; reflexivity |]. apply dups_seen; [| exact Hj].
    rewrite PositiveMap.mem_find, PositiveMap.gss. reflexivity.
  - cbn [nth_error] in Hi. cbn [dups]. cbv zeta. destruct (PositiveMap.mem (enc_key x) seen); [right |]; apply (IH _ i j); try assumption; lia.
Qed.
