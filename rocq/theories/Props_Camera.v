(** Properties C29 and C30: the camera database. *)
From Coq Require Import String ZArith List Bool.
From Verif Require Import Base Num F32 Cfa Camera CameraData Spec_Camera Spec_CameraData P_Camera3 P_CameraData P_CameraData2.
Import ListNotations.
Local Open Scope Z_scope.
Local Open Scope string_scope.
Local Open Scope list_scope.

(** C29: a camera that is found by make, model and mode is the one that the last
    of the declarations with this key describes: its make, its own model name or
    an alias with the clean name that goes with it, its mode, and every attribute
    from the mode or, where the mode says nothing, from the declaration.  Nothing
    is found only if nothing has been declared. *)
Theorem C29_lookup : forall db l make model mode, is_toml db -> loader_new db = Ok l ->
  match find_camera l make model mode with
  | Some c => exists before d after, declarations db = before ++ d :: after /\ describes d c /\
                key d = (make, model, mode) /\ forall d', In d' after -> key d' <> (make, model, mode)
  | None => forall d, In d (declarations db) -> key d <> (make, model, mode)
  end.
Proof. exact lookup_spec. Qed.
Print Assumptions C29_lookup.

(** C29: the same for the lookup by file size. *)
Theorem C29_naked : forall db l n, is_toml db -> loader_new db = Ok l -> 0 < n ->
  match find_naked l n with
  | Some c => exists before d after, declarations db = before ++ d :: after /\ describes d c /\
                says_size d n /\ forall d', In d' after -> ~ says_size d' n
  | None => forall d, In d (declarations db) -> ~ says_size d n
  end.
Proof. exact naked_spec. Qed.
Print Assumptions C29_naked.

(** C29: every declared key is supported. *)
Theorem C29_supported : forall db l d make model mode, is_toml db -> loader_new db = Ok l -> In d (declarations db) ->
  key d = (make, model, mode) -> exists c, check_supported_with_everything l make model mode = Ok c /\
    c_make c = make /\ c_model c = model /\ c_mode c = mode.
Proof. exact key_found. Qed.
Print Assumptions C29_supported.

(** A database with an alias and a mode that changes the white level. *)
Definition two : list table :=
  [[("make", VStr "M"); ("model", VStr "A"); ("clean_model", VStr "a"); ("whitepoint", VInt 4000); ("bps", VInt 12);
    ("model_aliases", VArr [VArr [VStr "B"; VStr "b"]]);
    ("modes", VArr [VTable [("mode", VStr "14bit"); ("whitepoint", VInt 16000)]])]].
Example C29_two :
  match loader_new two with
  | Ok l =>
      let look model mode := match find_camera l "M" model mode with
                             | Some c => Some (c_clean_model c, e0 (c_whites c), c_bps c)
                             | None => None
                             end in
      (List.length l, look "B" "14bit", look "A" "", look "C" "") = (4%nat, Some ("b", 16000, 12), Some ("a", 4000, 12), None)
  | _ => False
  end.
Proof. lazy. reflexivity. Qed.

(** C30: every value written in the shipped declarations fits its attribute, the
    attributes that every camera needs are there and no attribute is written
    twice. *)
Theorem C30_fine : fine shipped.
Proof. exact shipped_fine. Qed.
Print Assumptions C30_fine.

(** C30: any database like this can be loaded; so can the shipped one. *)
Theorem C30_fine_loads : forall db, fine db -> exists l, loader_new db = Ok l.
Proof. exact load_ok. Qed.
Print Assumptions C30_fine_loads.
Theorem C30_loads : exists l, loader_new shipped = Ok l.
Proof. exact shipped_loads. Qed.
Print Assumptions C30_loads.

(** C30: only the ten keys of [repeated] are declared more than once. *)
Theorem C30_keys_partial : forall i j d d', i <> j -> nth_error (declarations shipped) i = Some d ->
  nth_error (declarations shipped) j = Some d' -> key d = key d' -> In (key d) repeated.
Proof. exact shipped_keys. Qed.
Print Assumptions C30_keys_partial.

(** C30: for the last two of them the declarations are the same. *)
Theorem C30_same : forall d d', In d (declarations shipped) -> In d' (declarations shipped) -> key d = key d' ->
  In (key d) (skipn 8 repeated) -> d = d'.
Proof. exact shipped_same. Qed.
Print Assumptions C30_same.

(** C30 does not hold: for each of the other eight there are two declarations that
    describe cameras with different names or white levels. *)
Theorem C30_conflicts_refuted : forall k, In k (firstn 8 repeated) -> exists d d' c c',
  In d (declarations shipped) /\ In d' (declarations shipped) /\ key d = k /\ key d' = k /\ describes d c /\ describes d' c' /\
  (c_clean_model c, c_whites c) <> (c_clean_model c', c_whites c').
Proof. exact shipped_conflicts. Qed.
Print Assumptions C30_conflicts_refuted.

(** C30: no two declarations claim the same file size. *)
Theorem C30_sizes : forall i j d d' n, 0 < n -> nth_error (declarations shipped) i = Some d ->
  nth_error (declarations shipped) j = Some d' -> says_size d n -> says_size d' n -> i = j.
Proof. exact shipped_sizes. Qed.
Print Assumptions C30_sizes.

Example C30_some : List.length shipped = 442%nat /\ List.length (declarations shipped) = 736%nat /\
  In ("Canon", "Canon EOS 350D Digital", "") (firstn 8 repeated).
Proof. repeat split; try reflexivity. left. reflexivity. Qed.
