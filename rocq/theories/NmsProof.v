(** Proofs about scripts that write tables. *)
From Coq Require Import String Ascii List ZArith Lia.
From Verif Require Import PyBase StrBase NmsModel NmsSpec.
Import ListNotations.
Open Scope string_scope.
Open Scope list_scope.

Lemma app_assoc_s : forall a b c, append (append a b) c = append a (append b c).
Proof. induction a; intros; cbn; congruence. Qed.
Lemma app_nil_s : forall a, append a "" = a.
Proof. induction a; cbn; congruence. Qed.
Lemma lines_app : forall a b, text_of_lines (a ++ b) = append (text_of_lines a) (text_of_lines b).
Proof. induction a as [|x a IH]; intros; cbn; [reflexivity|]. unfold text_of_lines in *. cbn. rewrite IH, app_assoc_s. reflexivity. Qed.
Lemma columns_cons : forall a b l, columns (a :: b :: l) = append a (append tab (columns (b :: l))).
Proof. reflexivity. Qed.
Lemma row_text : forall l rest, append (row l) rest = append (columns (l ++ [""])) (String "010" rest).
Proof.
  induction l as [|c l IH]; intros rest; [reflexivity|]. cbn [row app]. rewrite !app_assoc_s, IH.
  destruct (l ++ [""]) as [|b l'] eqn:E; [destruct l; discriminate|]. rewrite columns_cons, !app_assoc_s. reflexivity.
Qed.
Lemma header_text : forall c l rest, append (header (c :: l)) rest = append (append "#" (columns (c :: l))) (String "010" rest).
Proof.
  assert (H : forall l c rest, append (header_columns (c :: l)) rest = append (columns (c :: l)) (String "010" rest)).
  { induction l as [|b l IH]; intros c rest; [cbn; now rewrite app_assoc_s|].
    rewrite columns_cons. change (header_columns (c :: b :: l)) with (append c (append tab (header_columns (b :: l)))).
    now rewrite !app_assoc_s, IH. }
  intros c l rest. unfold header. rewrite !app_assoc_s. now rewrite H.
Qed.
Lemma times_text : forall get mode n t, time_rows get mode t n =
  text_of_lines (map (fun T => columns ([str_nat mode; str_nat T] ++ entry_columns (get mode T))) (seq t n)).
Proof.
  induction n as [|n IH]; intros t; [reflexivity|]. cbn [time_rows seq map]. rewrite row_text, IH. reflexivity.
Qed.
Lemma modes_text : forall max_time get n mode, mode_rows max_time get mode n =
  text_of_lines (map (fun p => columns ([str_nat (fst p); str_nat (snd p)] ++ entry_columns (get (fst p) (snd p)))) (list_prod (seq mode n) (seq 0 (max_time + 1)))).
Proof.
  induction n as [|n IH]; intros mode; [reflexivity|]. cbn [mode_rows seq list_prod]. rewrite map_app, lines_app, map_map, times_text, IH. reflexivity.
Qed.
Lemma middle_text : forall get n mode, middle_rows get mode n =
  text_of_lines (map (fun m => columns (str_nat m :: entry_columns (get m 0))) (seq mode n)).
Proof. induction n as [|n IH]; intros mode; [reflexivity|]. cbn [middle_rows seq map]. rewrite row_text, IH. reflexivity. Qed.
Lemma displacement_text : forall get n t, displacement_rows get t n =
  text_of_lines (map (fun T => columns (str_nat T :: entry_columns (get T))) (seq t n)).
Proof. induction n as [|n IH]; intros t; [reflexivity|]. cbn [displacement_rows seq map]. rewrite row_text, IH. reflexivity. Qed.
Lemma names_text : forall l, names true l = quoted_names l.
Proof.
  assert (H : forall l, l <> [] -> names false l = append "," (quoted_names l)).
  { induction l as [|a l IH]; intros N; [congruence|]. unfold quoted_names in *. destruct l as [|b l].
    - reflexivity.
    - cbn [names]. cbn [names] in IH. rewrite IH by discriminate. cbn. now rewrite !app_assoc_s. }
  intros [|a [|b l]]; [reflexivity|reflexivity|]. change (names true (a :: b :: l)) with (append """" (append a (append """" (names false (b :: l))))).
  rewrite H by discriminate. unfold quoted_names. cbn. now rewrite !app_assoc_s.
Qed.
