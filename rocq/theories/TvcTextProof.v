(** Proofs about the text of files with Fourier-transformed velocities. *)
From Coq Require Import String Ascii List ZArith Bool Reals Lra Lia.
From Verif Require Import PyBase StrBase VecModel VtfModel VtfSpec VtfTextProof VtfPyModel VtfPyProof TvcModel.
Import ListNotations.
Open Scope list_scope.

Definition spaceless (s : string) : bool := all_chars (fun a => negb (is_ws a)) s.
Lemma plain_spaceless s : plain s = true -> spaceless s = true.
Proof.
  unfold plain, spaceless. induction s as [|a s IH]; [reflexivity|]. cbn [all_chars]. intros H. apply andb_true_iff in H. destruct H as (A & B).
  apply andb_true_iff in A. rewrite (proj1 A), (IH B). reflexivity.
Qed.
Lemma blank_ws a : is_blank a = true -> is_ws a = true.
Proof. destruct a as [[] [] [] [] [] [] [] []]; vm_compute; congruence. Qed.
Lemma newline_ws : is_ws newline = true.
Proof. reflexivity. Qed.
Lemma spaceless_cons a s : spaceless (String a s) = true -> is_ws a = false /\ spaceless s = true.
Proof. unfold spaceless. cbn [all_chars]. intros H. apply andb_true_iff in H. destruct H as (A & B). apply negb_true_iff in A. auto. Qed.
Lemma split_any_one s : spaceless s = true -> split_any is_blank s = [s].
Proof.
  induction s as [|a s IH]; intros H; [reflexivity|]. apply spaceless_cons in H. destruct H as (A & B). cbn [split_any].
  destruct (is_blank a) eqn:E; [apply blank_ws in E; congruence|]. rewrite (IH B). reflexivity.
Qed.
Lemma split_any_cons s r : spaceless s = true -> split_any is_blank (s ++ String "009" r)%string = s :: split_any is_blank r.
Proof.
  induction s as [|a s IH]; intros H; [reflexivity|]. apply spaceless_cons in H. destruct H as (A & B). cbn [append split_any].
  destruct (is_blank a) eqn:E; [apply blank_ws in E; congruence|]. rewrite (IH B). reflexivity.
Qed.
Lemma join_cons c a b l : join c (a :: b :: l) = (a ++ String c (join c (b :: l)))%string.
Proof. reflexivity. Qed.
Lemma split_any_join l : l <> [] -> (forall s, In s l -> spaceless s = true) -> split_any is_blank (join "009" l) = l.
Proof.
  induction l as [|a [|b l] IH]; intros N H; [congruence|apply split_any_one, H; left; reflexivity|].
  rewrite join_cons, split_any_cons by (apply H; left; reflexivity). rewrite IH; [reflexivity|discriminate|intros; apply H; right; assumption].
Qed.
Lemma trim_right_id s : spaceless s = true -> trim_right s = s.
Proof.
  induction s as [|a s IH]; intros H; [reflexivity|]. apply spaceless_cons in H. destruct H as (A & B). cbn [trim_right]. rewrite (IH B).
  destruct s; [rewrite A|]; reflexivity.
Qed.
Lemma trim_left_id s : spaceless s = true -> trim_left s = s.
Proof. destruct s as [|a s]; intros H; [reflexivity|]. apply spaceless_cons in H. cbn [trim_left]. now rewrite (proj1 H). Qed.
Lemma trim_id s : spaceless s = true -> trim s = s.
Proof. intros H. unfold trim. now rewrite trim_right_id, trim_left_id. Qed.
(** A text that neither starts nor ends with white space. *)
Lemma trim_right_app s e : spaceless e = true -> e <> ""%string -> trim_right (s ++ e)%string = (s ++ e)%string.
Proof.
  intros E N. induction s as [|a s IH]; [apply trim_right_id, E|]. cbn [append trim_right]. rewrite IH.
  destruct (s ++ e)%string eqn:X; [|reflexivity]. exfalso. destruct s; [cbn in X; congruence|discriminate].
Qed.
Lemma trim_left_app s e : spaceless s = true -> s <> ""%string -> trim_left (s ++ e)%string = (s ++ e)%string.
Proof. destruct s as [|a s]; intros H N; [congruence|]. apply spaceless_cons in H. cbn [append trim_left]. now rewrite (proj1 H). Qed.

Definition lines_with_ends (ls : list string) : string := String.concat "" (map (fun l => l ++ String newline "")%string ls).
Lemma lines_text' ls : lines_with_ends ls = text_of ls.
Proof. reflexivity. Qed.
Lemma get_lines_text ls : (forall l, In l ls -> has_char newline l = false) -> get_lines (lines_with_ends ls) = ls.
Proof.
  intros H. unfold get_lines. rewrite lines_text', lines_text by exact H. rewrite last_last, String.eqb_refl. apply removelast_last.
Qed.
Lemma spaceless_char c s : is_ws c = true -> spaceless s = true -> has_char c s = false.
Proof.
  intros C. induction s as [|a s IH]; intros H; [reflexivity|]. apply spaceless_cons in H. destruct H as (A & B). cbn [has_char]. rewrite (IH B).
  destruct (Ascii.eqb_spec a c); [congruence|reflexivity].
Qed.
Lemma join_no_newline l : (forall s, In s l -> spaceless s = true) -> has_char newline (join "009" l) = false.
Proof.
  induction l as [|a [|b l] IH]; intros H; [reflexivity|apply spaceless_char; [reflexivity|apply H; left; reflexivity]|].
  rewrite join_cons, has_char_app. change (has_char newline (String "009" ?r)) with (has_char newline r).
  rewrite IH by (intros; apply H; right; assumption). rewrite (spaceless_char newline a); [reflexivity|reflexivity|apply H; left; reflexivity].
Qed.
Lemma wordy_spaceless s : spaceless s = wordy is_ws s.
Proof. reflexivity. Qed.
Lemma words_tabs l : (forall w, In w l -> w <> ""%string /\ spaceless w = true) -> words is_ws (join "009" l ++ String newline "")%string = l.
Proof.
  induction l as [|a [|b l] IH]; intros H.
  - reflexivity.
  - destruct (H a (or_introl eq_refl)) as (N & S). cbn [join]. rewrite words_cons; [reflexivity|exact N|exact S|reflexivity].
  - destruct (H a (or_introl eq_refl)) as (N & S). rewrite join_cons, append_assoc'. cbn [append]. rewrite words_cons by (try assumption; reflexivity).
    rewrite IH by (intros; apply H; right; assumption). reflexivity.
Qed.

Section Files.
Variables (F : Type) (value : F -> R) (show : F -> string) (read : string -> option F).
Hypothesis P : prints show read.
Lemma show_spaceless x : spaceless (show x) = true.
Proof. apply plain_spaceless, (P x). Qed.
Lemma show_nonempty x : show x <> ""%string.
Proof. apply (P x). Qed.
Lemma In_show s l : In s (map show l) -> s <> ""%string /\ spaceless s = true.
Proof. intros H. apply in_map_iff in H. destruct H as (x & <- & _). split; [apply show_nonempty|apply show_spaceless]. Qed.
Lemma casts_show l : casts F value read (map show l) = Ok (map value l).
Proof.
  induction l as [|x l IH]; [reflexivity|]. cbn [map casts]. rewrite trim_id by apply show_spaceless. rewrite (proj1 (P x)), IH. reflexivity.
Qed.
Lemma floats_show l : floats F value read (map show l) = Ok (map value l).
Proof. induction l as [|x l IH]; [reflexivity|]. cbn [map floats]. rewrite (proj1 (P x)), IH. reflexivity. Qed.
Lemma file_no_newline k_n l line : In line (header_line F show k_n :: map (sample_line F show) l) -> has_char newline line = false.
Proof.
  intros [<-|H].
  - destruct k_n as [[x y] z]. unfold header_line. rewrite has_char_app. change (has_char newline (String "009" ?r)) with (has_char newline r).
    rewrite join_no_newline by (intros s S; apply In_show in S; tauto). reflexivity.
  - apply in_map_iff in H. destruct H as ([t [[[[[a b] c] d] e] f]] & <- & _). unfold sample_line. apply join_no_newline. intros s S. apply In_show in S. tauto.
Qed.
Lemma file_lines k_n l : get_lines (saveFourierTransformedVelocities F show k_n l) = header_line F show k_n :: map (sample_line F show) l.
Proof. apply get_lines_text. intros x. apply file_no_newline. Qed.
Lemma file_keep_lines k_n l : keep_lines (saveFourierTransformedVelocities F show k_n l)
  = map (fun l => l ++ String newline "")%string (header_line F show k_n :: map (sample_line F show) l).
Proof.
  change (saveFourierTransformedVelocities F show k_n l) with (text_of (header_line F show k_n :: map (sample_line F show) l)).
  rewrite <- text_with_text_of. apply keep_text. intros x. apply file_no_newline.
Qed.
Lemma sample_split t a b c d e f : split_any is_blank (sample_line F show (t, (a, b, c, d, e, f))) = map show [t; a; b; c; d; e; f].
Proof. unfold sample_line. apply split_any_join; [discriminate|]. intros s S. apply In_show in S. tauto. Qed.
Lemma sub_all s : substring 0 (String.length s) s = s.
Proof. induction s as [|a s IH]; [reflexivity|]. cbn [String.length substring]. now rewrite IH. Qed.
Lemma header_read k_n l : wave_vector_of F value read (saveFourierTransformedVelocities F show k_n l)
  = Ok (let '(x, y, z) := k_n in Vec (value x) (value y) (value z)).
Proof.
  unfold wave_vector_of. rewrite file_lines. cbn [hd]. destruct k_n as [[x y] z]. unfold header_line.
  set (j := join "009" (map show [x; y; z])).
  change (substring 0 5 ("#k_n:" ++ String "009" j)%string) with (substring 0 5 ("#k_n:" ++ String "009" j)%string).
  assert (S0 : substring 0 0 (String "009" j) = ""%string) by reflexivity.
  cbn [append substring]. cbn [String.eqb Ascii.eqb Bool.eqb negb].
  assert (L : (String.length (String "#" (String "k" (String "_" (String "n" (String ":" (String "009" j)))))) - 5 = S (String.length j))%nat) by (cbn [String.length]; lia).
  rewrite L. cbn [substring].
  assert (SA : substring 0 (String.length j) j = j) by apply sub_all. rewrite SA.
  assert (T : trim (String "009" j) = j).
  { unfold trim. change (String "009" j) with (String "009" "" ++ j)%string. subst j. cbn [map]. rewrite !join_cons. cbn [join].
    assert (E : forall u v w : string, (u ++ String "009" (v ++ String "009" w) = ((u ++ String "009" v) ++ String "009" "") ++ w)%string).
    { intros u v w. rewrite !append_assoc'. reflexivity. }
    rewrite E. rewrite <- append_assoc'. rewrite trim_right_app; [|apply show_spaceless|apply show_nonempty]. rewrite append_assoc'.
    cbn [append trim_left]. change (is_ws "009") with true. cbn iota. rewrite <- E. apply trim_left_app; [apply show_spaceless|apply show_nonempty]. }
  rewrite T. subst j. rewrite split_any_join; [|discriminate|intros s S; apply In_show in S; tauto].
  cbn [length map Nat.eqb negb]. change [show x; show y; show z] with (map show [x; y; z]). rewrite casts_show. reflexivity.
Qed.
Lemma py_header_read k_n l : py_integer_components F value read (saveFourierTransformedVelocities F show k_n l)
  = Ok (let '(x, y, z) := k_n in Vec (value x) (value y) (value z)).
Proof.
  unfold py_integer_components. rewrite file_keep_lines. cbn [map hd]. destruct k_n as [[x y] z]. unfold header_line.
  rewrite append_assoc'. cbn [append].
  change (String "#" (String "k" (String "_" (String "n" (String ":" (String "009" (join "009" (map show [x; y; z]) ++ String newline ""))))))%string)
    with ("#k_n:" ++ String "009" (join "009" (map show [x; y; z]) ++ String newline ""))%string.
  rewrite words_cons; [|discriminate|reflexivity|reflexivity]. rewrite words_tabs by (intros w W; apply In_show in W; exact W).
  cbn [append]. cbn [String.eqb String.prefix negb tl]. rewrite floats_show. reflexivity.
Qed.
End Files.
