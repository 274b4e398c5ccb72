(** Property C81: numbers in files. *)
From Coq Require Import String Ascii List ZArith Reals Lra Lia Bool.
From Coq Require DecimalString.
From Verif Require Import StrBase DigModel DigSpec DigProof DigRoundProof DigTextProof.
From Verif Require VtfSpec VtfStarModel VtfStarTheorems.
Import ListNotations.
Open Scope string_scope.
Open Scope Z_scope.

(** C81: whatever is done with ties, a number of type [double] that is rounded to 17 significant decimal digits and then
    to the nearest [double] is the same number as before. *)
Theorem digits_suffice : forall x d y : R, double_value x ->
  nearest (decimal (digits10 53 + 2)) x d -> nearest double_value d y -> y = x.
Proof.
  intros x d y DX ND NY. change (digits10 53 + 2) with 17 in ND.
  apply (printed_read double_value 53 17 x d y); try assumption; [lia|lia|reflexivity|]. intros z. apply binary_short.
Qed.
Print Assumptions digits_suffice.

(** C81: the text that is written to files for a [double] is read as the same [double], including the sign of zeros. *)
Theorem number_text_read : forall x : double, double_cast (double_text file_precision x) = Some x.
Proof. intros x. apply text_roundtrip; [lia|apply Nat.leb_le; reflexivity|reflexivity]. Qed.
Print Assumptions number_text_read.

(** Some numbers: 0.1, the negative of the smallest and the largest number, the negative zero, 1000, 2^-14 and 2^70. *)
Definition a_double (neg : bool) (m e : Z) : option double := make 53 (-1074) 971 (Number neg m e).
Example number_texts :
  map (fun o => match o with Some x => double_text file_precision x | None => "" end)
    [a_double false 7205759403792794 (-56); a_double true 1 (-1074); a_double false 9007199254740991 971; a_double true 0 (-1074);
     a_double false 8796093022208000 (-43); a_double false 4503599627370496 (-66); a_double false 4503599627370496 18]
  = ["0.10000000000000001"; "-4.9406564584124654e-324"; "1.7976931348623157e+308"; "-0"; "1000"; "6.103515625e-05"; "1.1805916207174113e+21"].
Proof. vm_compute. reflexivity. Qed.

(** C81: so what the readers of files assume of numbers is true of [double]. *)
Theorem doubles_print : VtfSpec.prints (double_text file_precision) double_cast.
Proof.
  intros x. split; [apply number_text_read|]. destruct (print_chars 53 (-1074) 971 ltac:(lia) file_precision x ltac:(apply Nat.leb_le; reflexivity)) as (N & C).
  split; [exact N|]. unfold double_text. revert C. generalize (print 53 (-1074) 971 file_precision x). clear. intros s.
  unfold VtfSpec.plain. induction s as [|c s IH]; [reflexivity|]. cbn [all_chars]. intros H. apply andb_true_iff in H. destruct H as (A & B).
  rewrite (IH B), andb_true_r. clear - A. destruct c as [[] [] [] [] [] [] [] []]; revert A; vm_compute; intros; congruence.
Qed.
Print Assumptions doubles_print.

(** C81, C39: a simulation of star polymers that is saved and restarted continues from exactly the positions and velocities it had. *)
Theorem star_restart_double : forall (s : StarModel.structure) (debug : bool) (positions velocities : Z -> double) (minus_one negative : double -> bool) (radius : double),
  minus_one radius = true -> StarSpec.well_formed s -> StarModel.getParticleCount s < 2 ^ 64 ->
  exists w1 w2 r ls rest,
    VtfStarModel.writeStructureToSnapshot negative minus_one radius s VtfModel.new_writer = PyBase.Ok w1 /\
    VtfStarModel.writeStateToSnapshot s (double_text file_precision) w1 positions velocities = PyBase.Ok w2 /\
    VtfModel.open_file double_cast negative debug (VtfModel.file_contents (double_text file_precision) w2) = PyBase.Ok (r, ls) /\
    VtfStarModel.readStateFromSnapshot s double_cast r ls =
      PyBase.Ok (Some (VtfSpec.step_rows (Z.to_nat (StarModel.getParticleCount s)) (positions, Some velocities)), rest).
Proof.
  intros s debug positions velocities minus_one negative radius M W N.
  destruct (VtfStarTheorems.star_snapshot_restart double (double_text file_precision) double_cast negative minus_one radius s debug [] positions velocities
    doubles_print M W N (Forall_nil _) (Forall_nil _) eq_refl eq_refl) as (w1 & w2 & r & ls & rest & A & B & C & _ & D).
  exists w1, w2, r, ls, rest. auto.
Qed.
Print Assumptions star_restart_double.

Lemma unsigned_text w n : 0 <= n < 2 ^ w -> unsigned_cast w (str_of_Z n) = Some n.
Proof.
  intros N. assert (D : all_chars is_digit (str_of_Z n) = true).
  { unfold str_of_Z. destruct n as [|p|p]; [reflexivity| |lia]. cbn [Z.to_int]. unfold DecimalString.NilZero.string_of_int, DecimalString.NilZero.string_of_uint.
    destruct (Pos.to_uint p) eqn:E; [reflexivity|..]; rewrite <- E; apply uint_digits. }
  assert (P : match str_of_Z n with String "+" r => r | _ => str_of_Z n end = str_of_Z n).
  { destruct (str_of_Z n) as [|c r]; [reflexivity|]. cbn [all_chars] in D. apply andb_true_iff in D as [D _]. destruct c as [[] [] [] [] [] [] [] []]; try reflexivity; discriminate D. }
  unfold unsigned_cast. rewrite P, D, Z_of_str_of_Z. destruct (String.eqb_spec (str_of_Z n) "") as [E|_]; [destruct (str_of_Z_nonempty n E)|]. cbn [negb andb].
  destruct (Z.ltb_spec n (2 ^ w)); [reflexivity|lia].
Qed.
(** C81: an accumulator of doubles is read from its text as it was, if its size fits in 64 bits, its sum of squares is not negative,
    and it has no sums without data. *)
Theorem accumulator_text_read : forall x : state 53 (-1074) 971,
  0 <= sampleSize _ _ _ x < 2 ^ 64 -> is_negative _ _ _ (varianceHelper _ _ _ x) = false ->
  (sampleSize _ _ _ x = 0 -> is_zero _ _ _ (mean _ _ _ x) = true /\ is_zero _ _ _ (varianceHelper _ _ _ x) = true) ->
  unserializeFromString _ _ _ (serializeToString _ _ _ x) = Some x.
Proof.
  intros [n m h]. cbn [sampleSize mean varianceHelper]. intros N H Z0. unfold serializeToString, unserializeFromString. cbn [sampleSize mean varianceHelper].
  assert (NS : forall y : double, has_char ";" (print 53 (-1074) 971 (precision 53) y) = false).
  { intros y. destruct (print_chars 53 (-1074) 971 ltac:(lia) (precision 53) y ltac:(apply Nat.leb_le; reflexivity)) as (_ & C).
    apply (all_chars_has _ _ _ C). reflexivity. }
  assert (NZ : has_char ";" (str_of_Z n) = false) by (apply str_of_Z_no; reflexivity).
  change ("1;" ++ ?a) with ("1" ++ String ";" a). rewrite (split_cons ";" "1") by reflexivity.
  change (str_of_Z n ++ ";" ++ ?a) with (str_of_Z n ++ String ";" a). rewrite (split_cons ";" (str_of_Z n)) by exact NZ.
  change (print 53 (-1074) 971 (precision 53) m ++ ";" ++ ?a) with (print 53 (-1074) 971 (precision 53) m ++ String ";" a).
  rewrite split_cons by apply NS. rewrite split_none by apply NS.
  change (unsigned_cast 32 "1") with (Some 1). rewrite unsigned_text by exact N.
  rewrite !(text_roundtrip 53 (-1074) 971) by (first [lia|reflexivity|apply Nat.leb_le; reflexivity]).
  change (negb (1 =? 1)) with false. cbn iota.
  destruct (Z.eqb_spec n 0) as [E|E].
  - destruct (Z0 E) as (-> & ->). cbn [andb orb negb]. rewrite H. reflexivity.
  - cbn [andb]. rewrite H. reflexivity.
Qed.
Print Assumptions accumulator_text_read.
Example accumulator_text : exists x : state 53 (-1074) 971, serializeToString _ _ _ x = "1;3;0.10000000000000001;1000".
Proof.
  exists (State 53 (-1074) 971 3 (exist _ (Number false 7205759403792794 (-56)) eq_refl) (exist _ (Number false 8796093022208000 (-43)) eq_refl)).
  vm_compute. reflexivity.
Qed.

Lemma confuse bits emin emax (show : float bits emin emax -> string) a b (ha : valid bits emin emax a = true) (hb : valid bits emin emax b = true) :
  a <> b -> show (exist _ a ha) = show (exist _ b hb) -> confused show.
Proof. intros N E. exists (exist _ a ha), (exist _ b hb). split; [|exact E]. intros X. apply N. injection X as X. exact X. Qed.

(** C81: 17 digits are needed: 16 are not enough. *)
Theorem digits_needed : confused (double_text 16).
Proof. apply (confuse 53 (-1074) 971 _ (Number false 8796093022208008 (-43)) (Number false 8796093022208009 (-43)) eq_refl eq_refl); [discriminate|vm_compute; reflexivity]. Qed.
Print Assumptions digits_needed.

(** C81 is false for accumulators of [float]: [digits10 + 2], that is 8, digits are not enough, and states that differ have the same text. *)
Theorem single_accumulator_refuted : exists x y : state 24 (-149) 104, x <> y /\
  serializeToString _ _ _ x = serializeToString _ _ _ y /\ serializeToString _ _ _ x = "1;1;1000.0001;0".
Proof.
  exists (State 24 (-149) 104 1 (exist _ (Number false 16384001 (-14)) eq_refl) (exist _ (Number false 0 (-149)) eq_refl)),
         (State 24 (-149) 104 1 (exist _ (Number false 16384002 (-14)) eq_refl) (exist _ (Number false 0 (-149)) eq_refl)).
  split; [discriminate|]. split; vm_compute; reflexivity.
Qed.
Print Assumptions single_accumulator_refuted.

(** C81 is false for the bond lengths of chains, which are written with the six digits of a new stream. *)
Theorem chains_digits_refuted : confused (double_text default_precision).
Proof. apply (confuse 53 (-1074) 971 _ (Number false 4503599627370496 (-52)) (Number false 4503600000000000 (-52)) eq_refl eq_refl); [discriminate|vm_compute; reflexivity]. Qed.
Print Assumptions chains_digits_refuted.
(** C81 is false for the texts of accumulators of Python 2, where [str] writes twelve digits. *)
Theorem python2_digits_refuted : confused python2_str.
Proof. apply (confuse 53 (-1074) 971 _ (Number false 4503599627370496 (-52)) (Number false 4503599627370497 (-52)) eq_refl eq_refl); [discriminate|vm_compute; reflexivity]. Qed.
Print Assumptions python2_digits_refuted.
