(** Strings: splitting, joining, decimal integers. *)
From Coq Require Export String Ascii List ZArith Bool.
From Coq Require Import DecimalString DecimalZ Decimal Lia.
Export ListNotations.
Set Implicit Arguments.
Open Scope string_scope.

(** [s.split(c)] of Python, [boost::split] with a single separator. *)
Fixpoint split (c : ascii) (s : string) : list string :=
  match s with
  | EmptyString => [EmptyString]
  | String a r =>
    if Ascii.eqb a c then EmptyString :: split c r
    else match split c r with
         | [] => [String a EmptyString]
         | h :: t => String a h :: t
         end
  end.

(** The character occurs in the string. *)
Fixpoint has_char (c : ascii) (s : string) : bool :=
  match s with
  | EmptyString => false
  | String a r => Ascii.eqb a c || has_char c r
  end.

Lemma has_char_app c a b : has_char c (a ++ b) = has_char c a || has_char c b.
Proof.
  induction a as [|x a IH]; simpl; [reflexivity|].
  rewrite IH, orb_assoc. reflexivity.
Qed.

Lemma str_app_assoc (a b c : string) : a ++ (b ++ c) = (a ++ b) ++ c.
Proof. induction a as [|x a IH]; simpl; congruence. Qed.

Lemma str_app_nil (a : string) : a ++ "" = a.
Proof. induction a as [|x a IH]; simpl; congruence. Qed.

Lemma split_nonempty c s : split c s <> [].
Proof.
  destruct s as [|a r]; simpl; [discriminate|].
  destruct (Ascii.eqb a c); [discriminate|].
  destruct (split c r); discriminate.
Qed.

Lemma split_none c s : has_char c s = false -> split c s = [s].
Proof.
  induction s as [|a r IH]; simpl; [reflexivity|].
  intros H. apply orb_false_iff in H. destruct H as [H1 H2].
  rewrite H1, (IH H2). reflexivity.
Qed.

Lemma split_cons c a b : has_char c a = false ->
  split c (a ++ String c b) = a :: split c b.
Proof.
  induction a as [|x a IH]; simpl; intros H.
  - rewrite Ascii.eqb_refl. reflexivity.
  - apply orb_false_iff in H. destruct H as [H1 H2].
    rewrite H1, (IH H2). reflexivity.
Qed.

(** [c.join(l)]. *)
Fixpoint join (c : ascii) (l : list string) : string :=
  match l with
  | [] => ""
  | [x] => x
  | x :: r => x ++ String c (join c r)
  end.

Lemma split_join c l : l <> [] ->
  (forall x, In x l -> has_char c x = false) ->
  split c (join c l) = l.
Proof.
  induction l as [|x l IH]; intros Hn H; [congruence|].
  destruct l as [|y l].
  - simpl. apply split_none, H. left; reflexivity.
  - change (join c (x :: y :: l)) with (x ++ String c (join c (y :: l))).
    rewrite split_cons by (apply H; left; reflexivity).
    rewrite IH; [reflexivity|discriminate|].
    intros z Hz. apply H. right; assumption.
Qed.

(** [str(z)] for a Python integer. *)
Definition str_of_Z (z : Z) : string := NilZero.string_of_int (Z.to_int z).
(** [int(s)]: optional minus sign and at least one decimal digit.
    Simplified: Python also accepts a plus sign, surrounding white space and
    underscores between digits. *)
Definition Z_of_str (s : string) : option Z :=
  option_map Z.of_int (NilZero.int_of_string s).

Lemma Z_of_str_of_Z z : Z_of_str (str_of_Z z) = Some z.
Proof.
  unfold Z_of_str, str_of_Z.
  rewrite NilZero.isi.
  - simpl. rewrite DecimalZ.of_to. reflexivity.
  - intros H. assert (E : Z.of_int (Z.to_int z) = Z.of_int (Pos Nil)) by (rewrite H; reflexivity).
    rewrite DecimalZ.of_to in E. subst z. discriminate.
  - intros H. assert (E : Z.of_int (Z.to_int z) = Z.of_int (Neg Nil)) by (rewrite H; reflexivity).
    rewrite DecimalZ.of_to in E. subst z. discriminate.
Qed.

(** Characters that occur in decimal integers. *)
Definition is_digit (a : ascii) : bool :=
  (Nat.leb 48 (nat_of_ascii a)) && (Nat.leb (nat_of_ascii a) 57).
Fixpoint all_chars (p : ascii -> bool) (s : string) : bool :=
  match s with EmptyString => true | String a r => p a && all_chars p r end.

Lemma all_chars_has p c s : all_chars p s = true -> p c = false -> has_char c s = false.
Proof.
  intros H Hc. induction s as [|a r IH]; simpl in *; [reflexivity|].
  apply andb_true_iff in H. destruct H as [H1 H2].
  rewrite (IH H2), orb_false_r.
  destruct (Ascii.eqb_spec a c); [congruence|reflexivity].
Qed.

Lemma uint_digits d : all_chars is_digit (NilEmpty.string_of_uint d) = true.
Proof. induction d; simpl; auto. Qed.

Lemma str_of_Z_chars z :
  all_chars (fun a => is_digit a || Ascii.eqb a "-") (str_of_Z z) = true.
Proof.
  assert (W : forall s, all_chars is_digit s = true ->
     all_chars (fun a => is_digit a || Ascii.eqb a "-") s = true).
  { induction s as [|a s IH]; simpl; [auto|]. intros H.
    apply andb_true_iff in H. destruct H as [-> H]. simpl. auto. }
  unfold str_of_Z. destruct (Z.to_int z) as [d|d]; simpl.
  - destruct d; try reflexivity; apply W, uint_digits.
  - destruct d; try reflexivity; simpl; apply W, uint_digits.
Qed.

Lemma str_of_Z_no c z : is_digit c = false -> Ascii.eqb c "-" = false ->
  has_char c (str_of_Z z) = false.
Proof.
  intros H1 H2. apply (@all_chars_has (fun a => is_digit a || Ascii.eqb a "-")).
  - apply str_of_Z_chars.
  - rewrite H1, H2. reflexivity.
Qed.

Lemma str_of_Z_nonempty z : str_of_Z z <> "".
Proof.
  intros H. pose proof (Z_of_str_of_Z z) as E. rewrite H in E. discriminate.
Qed.
