(** Tables of settings (C128). *)
From Coq Require Import String Ascii List ZArith Bool Sorted Qcanon.
From Verif Require Import PyBase StrBase ConfModel ConfSpec ConfTreeProof PrmModel PrmSpec PrmProof.
Import ListNotations.
Open Scope string_scope.
Open Scope list_scope.

(** Example of numbers written in some way. *)
Definition some_text (q : Qc) : string := "0.5".

(** The first line has the names of all settings and further parameters, in order, the second line has their values. *)
Theorem table_saved show c additional : proper c -> NoDup (map fst additional) ->
  (forall key v w, In (key, v) additional -> ~ has_value c [] key w) ->
  exists columns, in_order (map fst columns) /\ (forall key v, In (key, v) columns <-> has_value c additional key v) /\
    ((forall v, ~ has_value c additional "" v) ->
     saveToParameterFile show c true (Some (map (fun kv => (Some (fst kv), snd kv)) additional)) =
       Ok (table_text (map (fun kv => (fst kv, value_text show (snd kv))) columns))).
Proof. exact (saved show c additional). Qed.
Print Assumptions table_saved.
Example table_saved_example :
  saveToParameterFile some_text sample true (Some [(Some "extra", Some (LBool true)); (Some "a", Some (LInt (-3)))]) =
  Ok ("a" ++ String tab ("box.open" ++ String tab ("box.walls" ++ String tab ("box.x" ++ String tab ("extra" ++ String tab ("name" ++
      String eol ("-3" ++ String tab ("false" ++ String tab ("None" ++ String tab ("10" ++ String tab ("true" ++ String tab "{run 1}")))))))))))%string.
Proof. vm_compute. reflexivity. Qed.

Example table_saved_proper : proper sample.
Proof.
  unfold sample. constructor; [repeat constructor; cbn; intuition discriminate|].
  intros k v [[= <- <-] | [[= <- <-] | []]]; (split; [reflexivity|]); constructor.
  - repeat constructor; cbn; intuition discriminate.
  - intros k v [[= <- <-] | [[= <- <-] | [[= <- <-] | []]]]; (split; [reflexivity|]); constructor. intros v [].
Qed.

(** Texts are in braces, settings without a value are written None, truth values in lower case, integers as decimals. *)
Theorem table_values show :
  (forall s, value_text show (Some (LStr s)) = ("{" ++ s ++ "}")%string) /\ value_text show None = "None" /\
  value_text show (Some (LBool true)) = "true" /\ value_text show (Some (LBool false)) = "false" /\
  (forall z, Z_of_str (value_text show (Some (LInt z))) = Some z) /\ (forall q, value_text show (Some (LFloat q)) = show q).
Proof. repeat split. intros z. exact (Z_of_str_of_Z z). Qed.
Print Assumptions table_values.
Example table_values_example : value_text some_text (Some (LInt (-12))) = "-12".
Proof. vm_compute. reflexivity. Qed.

(** Values that are not floating-point numbers can be told apart, even a text from what it says. *)
Theorem table_values_differ show a b : (forall q, a <> Some (LFloat q)) -> (forall q, b <> Some (LFloat q)) ->
  value_text show a = value_text show b -> a = b.
Proof. exact (value_text_inj show a b). Qed.
Print Assumptions table_values_differ.
Example table_values_differ_example : value_text some_text (Some (LStr "true")) <> value_text some_text (Some (LBool true)).
Proof. vm_compute. discriminate. Qed.

(** Who reads the file gets each name with its value, if there are neither tabulators nor ends of lines in them. *)
Theorem table_reads_back show c additional : proper c -> NoDup (map fst additional) ->
  (forall key v w, In (key, v) additional -> ~ has_value c [] key w) ->
  (forall v, ~ has_value c additional "" v) ->
  (forall key v, has_value c additional key v -> plain_text key /\ plain_text (value_text show v)) ->
  (exists key v, has_value c additional key v) ->
  exists text columns, saveToParameterFile show c true (Some (map (fun kv => (Some (fst kv), snd kv)) additional)) = Ok text /\
    read_table text = Some columns /\ in_order (map fst columns) /\
    (forall key t, In (key, t) columns <-> exists v, has_value c additional key v /\ t = value_text show v).
Proof.
  intros P N D E F (key0 & v0 & H0). destruct (saved show c additional P N D) as (columns & O & V & T).
  exists (table_text (map (fun kv => (fst kv, value_text show (snd kv))) columns)), (map (fun kv => (fst kv, value_text show (snd kv))) columns).
  split; [exact (T E)|]. split; [|split].
  - apply table_read.
    + apply V in H0. destruct columns; [destruct H0|discriminate].
    + apply Forall_map. apply Forall_forall. intros [k v] H. apply F. apply V. exact H.
  - rewrite map_map. cbn. exact O.
  - intros key t. rewrite in_map_iff. split.
    + intros ((k & v) & [= <- <-] & H). exists v. split; [apply V; exact H|reflexivity].
    + intros (v & H & ->). exists (key, v). split; [reflexivity|apply V; exact H].
Qed.
Print Assumptions table_reads_back.
Example table_reads_back_example :
  match saveToParameterFile some_text sample true (Some []) with Ok text => read_table text | Err _ => None end =
  Some [("box.open", "false"); ("box.walls", "None"); ("box.x", "10"); ("name", "{run 1}")].
Proof. vm_compute. reflexivity. Qed.

(** A path that is not a string, parameters that are no dictionary, names that are not strings, and parameters that are settings already
    are refused. *)
Theorem table_refused show c : 
  (forall additional, saveToParameterFile show c false additional = Err TypeError) /\
  (forall path, saveToParameterFile show c path None = Err TypeError) /\
  (forall path additional v, In (None, v) additional -> saveToParameterFile show c path (Some additional) = Err TypeError) /\
  (proper c -> forall additional key v w, NoDup (map fst additional) -> In (key, v) additional -> has_value c [] key w ->
   saveToParameterFile show c true (Some (map (fun kv => (Some (fst kv), snd kv)) additional)) = Err AssertionError).
Proof.
  split; [reflexivity|]. split; [intros [|]; reflexivity|]. split.
  - intros [|] additional v H; [|reflexivity]. unfold saveToParameterFile. cbn [negb]. rewrite (string_keys_none additional v H). reflexivity.
  - intros P additional key v w N H [G | []]. apply (flat_get c P) in G. unfold saveToParameterFile. cbn [negb]. rewrite string_keys_some.
    rewrite (not_added additional (flat c) key v w H G N). reflexivity.
Qed.
Print Assumptions table_refused.
Example table_refused_example : saveToParameterFile some_text sample true (Some [(Some "box.x", None)]) = Err AssertionError.
Proof. vm_compute. reflexivity. Qed.

(** A parameter without a name spoils the table: its value is run into the next one. A tabulator in a value moves the values after it. *)
Theorem table_reads_back_refuted :
  saveToParameterFile some_text (CGroup [("x", CLeaf (LInt 2))]) true (Some [(Some "", Some (LInt 1))]) = Ok ("x" ++ String eol "12")%string /\
  match saveToParameterFile some_text (CGroup [("x", CLeaf (LStr (String tab "")))]) true (Some []) with Ok text => read_table text | Err _ => Some [] end = None.
Proof. vm_compute. split; reflexivity. Qed.
Print Assumptions table_reads_back_refuted.
