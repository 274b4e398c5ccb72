(** The text of a number is read as the number. *)
From Coq Require Import String Ascii List ZArith Reals Lra Lia Psatz Bool Eqdep_dec.
From Verif Require Import StrBase DigModel DigSpec DigProof DigRoundProof.
Import ListNotations.
Open Scope string_scope.
Open Scope Z_scope.

Definition len (s : string) : Z := Z.of_nat (String.length s).
Lemma len_app a b : len (a ++ b) = len a + len b.
Proof. unfold len. induction a as [|c a IH]; cbn [append String.length]; lia. Qed.
Lemma all_app p a b : all_chars p (a ++ b) = all_chars p a && all_chars p b.
Proof. induction a as [|c a IH]; cbn [append all_chars]; [reflexivity|]. rewrite IH. apply andb_assoc. Qed.
Lemma split_at s n : (n <= String.length s)%nat -> s = substring 0 n s ++ substring n (String.length s - n) s.
Proof.
  revert n. induction s as [|a s IH]; intros n H.
  - cbn in *. assert (n = 0)%nat as -> by lia. reflexivity.
  - destruct n as [|n].
    + cbn. f_equal. clear. induction s as [|a s IH]; cbn; [reflexivity|]. f_equal. exact IH.
    + cbn in *. f_equal. apply IH. lia.
Qed.
Lemma len_sub s : forall n m, (n + m <= String.length s)%nat -> String.length (substring n m s) = m.
Proof.
  induction s as [|a s IH]; intros n m H; cbn in *.
  - destruct n, m; cbn; lia.
  - destruct n as [|n]; [destruct m as [|m]; cbn; [reflexivity|f_equal; apply IH; lia]|]. apply IH. lia.
Qed.

(** The value of digits after a value. *)
Fixpoint value (s : string) (v : Z) : Z := match s with "" => v | String c r => value r (10 * v + digit_value c) end.
Lemma value_app a b v : value (a ++ b) v = value b (value a v).
Proof. revert v. induction a as [|c a IH]; intros v; cbn [append value]; [reflexivity|apply IH]. Qed.
Definition stops (r : string) : Prop := match r with "" => True | String c _ => is_digit c = false end.
Lemma read_digits_ok a r : all_chars is_digit a = true -> stops r -> forall c v, read_digits (a ++ r) c v = (c + len a, value a v, r).
Proof.
  intros A S. induction a as [|x a IH]; intros c v.
  - cbn [append value]. unfold len. cbn [String.length]. replace (c + Z.of_nat 0) with c by lia.
    destruct r as [|x r]; [reflexivity|]. cbn [read_digits]. cbn in S. rewrite S. reflexivity.
  - cbn [all_chars] in A. apply andb_true_iff in A. destruct A as (D & A). cbn [append read_digits value]. rewrite D, (IH A).
    f_equal. f_equal. unfold len. cbn [String.length]. lia.
Qed.
Lemma digit_ok d : 0 <= d < 10 -> is_digit (digit d) = true /\ digit_value (digit d) = d.
Proof.
  intros H. unfold digit, is_digit, digit_value. rewrite !nat_ascii_embedding by lia. split; [|lia].
  apply andb_true_iff. split; apply Nat.leb_le; lia.
Qed.
Lemma digits_ok k : forall n, 0 <= n -> all_chars is_digit (digits k n) = true /\ len (digits k n) = Z.of_nat k /\
  (forall v, value (digits k n) v = v * 10 ^ Z.of_nat k + n mod 10 ^ Z.of_nat k).
Proof.
  induction k as [|k IH]; intros n N.
  - cbn [digits all_chars value]. change (10 ^ Z.of_nat 0) with 1. split; [reflexivity|]. split; [reflexivity|]. intros v. rewrite Z.mod_1_r. lia.
  - cbn [digits]. destruct (IH (n / 10) ltac:(apply Z.div_pos; lia)) as (A & L & V). destruct (digit_ok (n mod 10) (Z.mod_pos_bound n 10 ltac:(lia))) as (D & DV).
    split; [rewrite all_app, A; cbn [all_chars]; rewrite D; reflexivity|]. split; [rewrite len_app, L; unfold len; cbn [String.length]; lia|].
    intros v. rewrite value_app, V. cbn [value]. rewrite DV. rewrite Nat2Z.inj_succ, Z.pow_succ_r by lia.
    assert (0 < 10 ^ Z.of_nat k) by (apply Z.pow_pos_nonneg; lia).
    rewrite (Z.rem_mul_r n 10 (10 ^ Z.of_nat k)) by lia. ring.
Qed.
Lemma zeros_ok k : all_chars is_digit (zeros k) = true /\ len (zeros k) = Z.of_nat k /\ (forall v, value (zeros k) v = v * 10 ^ Z.of_nat k).
Proof.
  induction k as [|k (A & L & V)]; [split; [reflexivity|]; split; [reflexivity|]; intros v; cbn [zeros value]; change (10 ^ Z.of_nat 0) with 1; lia|].
  cbn [zeros all_chars value]. split; [exact A|]. split; [unfold len in *; cbn [String.length]; lia|].
  intros v. rewrite V, Nat2Z.inj_succ, Z.pow_succ_r by lia. change (digit_value "0") with 0. ring.
Qed.
Lemma strip_ok s : exists k, s = strip s ++ zeros k.
Proof.
  induction s as [|c s (k & E)]; [exists 0%nat; reflexivity|]. cbn [strip].
  destruct (strip s) as [|x t] eqn:T.
  - cbn [append] in E. destruct (Ascii.eqb_spec c "0") as [->|N].
    + exists (S k). cbn [append zeros]. rewrite E. reflexivity.
    + exists k. cbn [append]. rewrite E. reflexivity.
  - exists k. cbn [append] in E |- *. rewrite E. reflexivity.
Qed.

(** An exponent that is left out is zero. *)
Definition tail_text (t : string) (x : Z) : Prop := t = "" /\ x = 0 \/ t = exponent_text x.
Lemma exponent_read t x : tail_text t x -> read_exponent t = Some x /\ stops t /\ (forall r, t <> String "." r).
Proof.
  intros [(-> & ->)| ->]; [split; [reflexivity|]; split; [exact Logic.I|discriminate]|]. unfold exponent_text. split; [|split; [reflexivity|discriminate]].
  set (k := Nat.max 2 _).
  assert (X : Z.abs x < 10 ^ Z.of_nat k).
  { destruct (Z.eq_dec x 0) as [->|N]; [apply Z.pow_pos_nonneg; lia|].
    destruct (log_loop_ok 10 (Z.abs x) ltac:(lia) ltac:(lia)) as (K & _ & U). unfold k. set (l := log_loop 10 _ _) in *.
    eapply Z.lt_le_trans; [exact U|]. apply Z.pow_le_mono_r; [lia|]. lia. }
  destruct (digits_ok k (Z.abs x) ltac:(lia)) as (A & L & V).
  assert (K0 : 0 < Z.of_nat k) by (unfold k; lia).
  cbn [append read_exponent]. change (Ascii.eqb "e" "e" || Ascii.eqb "e" "E") with true. cbn iota.
  destruct (Z.ltb_spec x 0) as [S|S]; cbn [append read_sign];
    [change (Ascii.eqb "-" "-") with true|change (Ascii.eqb "+" "-") with false; change (Ascii.eqb "+" "+") with true]; cbn iota;
    rewrite <- (str_app_nil (digits k (Z.abs x))), (read_digits_ok (digits k (Z.abs x)) "" A Logic.I), V, L;
    rewrite Z.mod_small by lia; destruct (Z.eqb_spec (0 + Z.of_nat k) 0) as [Z0|Z0]; try lia; f_equal; lia.
Qed.
Definition sign_text (neg : bool) : string := if neg then "-" else "".
Lemma sign_read neg a r : a <> "" -> all_chars is_digit a = true -> read_sign (sign_text neg ++ a ++ r) = (neg, a ++ r).
Proof.
  intros N A. destruct neg; cbn [sign_text append read_sign]; [reflexivity|]. destruct a as [|c a]; [congruence|].
  cbn [all_chars] in A. apply andb_true_iff in A. destruct A as (D & _). cbn [append read_sign].
  destruct (Ascii.eqb_spec c "-") as [->|]; [discriminate D|]. destruct (Ascii.eqb_spec c "+") as [->|]; [discriminate D|]. reflexivity.
Qed.
Lemma text_read neg a b t x : a <> "" -> all_chars is_digit a = true -> all_chars is_digit b = true -> tail_text t x ->
  exists v k, read_decimal (sign_text neg ++ a ++ fraction b ++ t) = Some (neg, v, k) /\ k <= x /\ v * 10 ^ (k - (x - len b)) = value (a ++ b) 0 /\ x - len b <= k.
Proof.
  intros N A B T. destruct (exponent_read t x T) as (RE & ST & NP). destruct (strip_ok b) as (z & E).
  destruct (zeros_ok z) as (_ & ZL & ZV). assert (A0 : 0 < len a) by (unfold len; destruct a; [congruence|cbn [String.length]; lia]).
  unfold read_decimal. rewrite sign_read by assumption.
  assert (LB : len b = len (strip b) + Z.of_nat z) by (rewrite E at 1; rewrite len_app, ZL; reflexivity).
  assert (VB : forall w, value b w = value (strip b) w * 10 ^ Z.of_nat z) by (intros w; rewrite E at 1; rewrite value_app, ZV; reflexivity).
  assert (SB : all_chars is_digit (strip b) = true) by (rewrite E, all_app in B; apply andb_true_iff in B; apply B).
  unfold fraction. destruct (strip b) as [|c s] eqn:S.
  - cbn [append]. rewrite (read_digits_ok a t A ST). exists (value a 0), x.
    assert (M : match t with String "." r => read_digits r 0 (value a 0) | _ => (0, value a 0, t) end = (0, value a 0, t)).
    { destruct T as [(-> & _)| ->]; reflexivity. }
    rewrite M. destruct (Z.eqb_spec (0 + len a + 0) 0) as [Z0|Z0]; [lia|]. rewrite RE. unfold len in LB at 2. cbn [String.length] in LB.
    split; [f_equal; f_equal; lia|]. split; [lia|]. split; [|unfold len; lia]. rewrite value_app, VB. cbn [value].
    replace (x - (x - len b)) with (Z.of_nat z) by lia. reflexivity.
  - assert (ST2 : stops (String "." (String c s) ++ t)) by reflexivity. rewrite (read_digits_ok a (String "." (String c s) ++ t) A ST2).
    cbn [append]. change (String c (s ++ t)) with (String c s ++ t). rewrite (read_digits_ok (String c s) t SB ST).
    destruct (Z.eqb_spec (0 + len a + (0 + len (String c s))) 0) as [Z0|Z0]; [unfold len in *; lia|]. rewrite RE.
    exists (value (String c s) (value a 0)), (x - (0 + len (String c s))). split; [reflexivity|]. split; [unfold len; lia|]. split; [|lia].
    rewrite value_app, VB. f_equal. f_equal. lia.
Qed.

Lemma general_read neg p n e : (1 <= p)%nat -> 0 <= n < 10 ^ Z.of_nat p ->
  exists v k, read_decimal (sign_text neg ++ general p n e) = Some (neg, v, k) /\ (IZR v * bpow 10 k = IZR n * bpow 10 (e - (Z.of_nat p - 1)))%R.
Proof.
  intros P N. destruct (digits_ok p n ltac:(lia)) as (A & L & V). unfold general. set (s := digits p n) in *.
  assert (SL : String.length s = p) by (unfold len in L; lia).
  assert (V0 : value s 0 = n) by (rewrite V, Z.mod_small by lia; lia).
  assert (F : forall a b t x, a <> "" -> all_chars is_digit (a ++ b) = true -> tail_text t x -> value (a ++ b) 0 = n -> x - len b = e - (Z.of_nat p - 1) ->
     exists v k, read_decimal (sign_text neg ++ a ++ fraction b ++ t) = Some (neg, v, k) /\ (IZR v * bpow 10 k = IZR n * bpow 10 (e - (Z.of_nat p - 1)))%R).
  { intros a b t x NA AB T VV X. rewrite all_app in AB. apply andb_true_iff in AB. destruct AB as (AA & BB).
    destruct (text_read neg a b t x NA AA BB T) as (v & k & R & K1 & K2 & K3). exists v, k. split; [exact R|].
    rewrite <- VV, <- K2, mult_IZR, <- X. rewrite <- bpow_Z by lia. rewrite Rmult_assoc, <- bpow_add by lia. f_equal. f_equal. lia. }
  destruct ((e <? -4) || (Z.of_nat p <=? e)) eqn:C.
  - pose proof (split_at s 1 ltac:(lia)) as SP. rewrite SL in SP.
    pose proof (len_sub s 0 1 ltac:(lia)) as L1. pose proof (len_sub s 1 (p - 1) ltac:(lia)) as L2.
    apply F with (x := e).
    + intros X. rewrite X in L1. discriminate L1.
    + rewrite <- SP. exact A.
    + right. reflexivity.
    + rewrite <- SP. exact V0.
    + unfold len. rewrite L2. lia.
  - apply orb_false_iff in C. destruct C as (C1 & C2). apply Z.ltb_ge in C1. apply Z.leb_gt in C2.
    destruct (Z.ltb_spec e 0) as [E|E].
    + rewrite <- (str_app_nil (fraction _)). destruct (zeros_ok (Z.to_nat (- e - 1))) as (ZA & ZL & ZV). apply F with (x := 0).
      * discriminate.
      * cbn [append all_chars]. rewrite all_app, ZA, A. reflexivity.
      * left. split; reflexivity.
      * cbn [append value]. rewrite value_app, ZV. change (10 * 0 + digit_value "0") with 0. rewrite Z.mul_0_l. exact V0.
      * rewrite len_app, ZL, L. lia.
    + set (i := Z.to_nat (e + 1)). rewrite <- (str_app_nil (fraction _)).
      pose proof (split_at s i ltac:(unfold i; lia)) as SP. rewrite SL in SP.
      pose proof (len_sub s 0 i ltac:(unfold i; lia)) as L1. pose proof (len_sub s i (p - i) ltac:(unfold i; lia)) as L2.
      apply F with (x := 0).
      * intros X. rewrite X in L1. cbn in L1. unfold i in L1. lia.
      * rewrite <- SP. exact A.
      * left. split; reflexivity.
      * rewrite <- SP. exact V0.
      * unfold len. rewrite L2. unfold i. lia.
Qed.

Section Format.
Variable bits emin emax : Z.
Hypothesis bits_pos : 1 <= bits.
Notation valid := (valid bits emin emax).
Lemma valid_spec x : valid x = true <-> (0 <= mantissa x < 2 ^ bits /\ emin <= exponent x <= emax /\ (2 ^ (bits - 1) <= mantissa x \/ exponent x = emin)).
Proof. unfold DigModel.valid. rewrite !andb_true_iff, orb_true_iff, !Z.leb_le, Z.ltb_lt, Z.eqb_eq. lia. Qed.
(** A value has one representation. *)
Lemma canonical m e n f : 0 <= m < 2 ^ bits -> 0 <= n < 2 ^ bits -> emin <= e -> emin <= f -> (2 ^ (bits - 1) <= m \/ e = emin) -> (2 ^ (bits - 1) <= n \/ f = emin) ->
  (IZR m * bpow 2 e = IZR n * bpow 2 f)%R -> m = n /\ e = f.
Proof.
  assert (W : forall m e n f, 0 <= m < 2 ^ bits -> 0 <= n < 2 ^ bits -> emin <= e -> (2 ^ (bits - 1) <= n \/ f = emin) -> e < f -> (IZR m * bpow 2 e = IZR n * bpow 2 f)%R -> False).
  { clear m e n f. intros m e n f M N E NF L Q. destruct NF as [NF|NF]; [|lia].
    assert (m = n * 2 ^ (f - e)).
    { apply eq_IZR. apply (Rmult_eq_reg_r (bpow 2 e)); [|apply Rgt_not_eq, bpow_pos; lia]. rewrite Q, mult_IZR, <- bpow_Z, Rmult_assoc, <- bpow_add by lia.
      f_equal. f_equal. lia. }
    assert (2 ^ 1 <= 2 ^ (f - e)) by (apply Z.pow_le_mono_r; lia).
    assert (2 ^ bits = 2 ^ (bits - 1) * 2). { replace bits with (bits - 1 + 1) at 1 by lia. rewrite Z.pow_add_r by lia. reflexivity. }
    nia. }
  intros M N E F ME NF Q. destruct (Z.lt_trichotomy e f) as [L|[->|L]]; [destruct (W m e n f); assumption| |destruct (W n f m e); auto].
  split; [|reflexivity]. apply eq_IZR. apply (Rmult_eq_reg_r (bpow 2 f)); [exact Q|apply Rgt_not_eq, bpow_pos; lia].
Qed.
Lemma make_ok (x : float bits emin emax) : make bits emin emax (proj1_sig x) = Some x.
Proof.
  destruct x as (x & h). unfold make. cbn [proj1_sig]. destruct (bool_dec _ true) as [h'|h']; [|contradiction].
  f_equal. f_equal. apply (UIP_dec bool_dec).
Qed.
Lemma value_quotient x : quotient (numerator x) (denominator x) = (IZR (mantissa x) * bpow 2 (exponent x))%R.
Proof.
  unfold numerator, denominator. set (e := exponent x). pose proof (scaled_quotient 2 (mantissa x) 1 (- e) ltac:(lia) ltac:(lia)) as H.
  rewrite Z.opp_involutive, Z.mul_1_l in H. rewrite H. unfold quotient. pose proof (bpow_pos 2 (- e) ltac:(lia)) as P.
  assert (E : (bpow 2 e * bpow 2 (- e) = 1)%R). { rewrite <- bpow_add by lia. replace (e + - e) with 0 by lia. reflexivity. }
  apply (Rmult_eq_reg_r (bpow 2 (- e))); [|lra]. rewrite (Rmult_assoc (IZR (mantissa x))), E. field. lra.
Qed.
Lemma limited_decimal p d : limited 10 p None d <-> decimal p d.
Proof. unfold limited, decimal, short. split; intros (m & e & H); [exists m, e; tauto|exists m, e; split; [apply H|]; split; [exact Logic.I|apply H]]. Qed.

Lemma text_roundtrip p (x : float bits emin emax) : (1 <= p)%nat -> 2 ^ bits < 10 ^ (Z.of_nat p - 1) ->
  lexical_cast bits emin emax (print bits emin emax p x) = Some x.
Proof.
  intros P HB. unfold lexical_cast, print. fold (sign_text (negative (proj1_sig x))).
  pose proof (proj2_sig x) as VX. cbn beta in VX. apply valid_spec in VX. destruct VX as (VM & VE & VC).
  destruct (Z.eqb_spec (mantissa (proj1_sig x)) 0) as [M0|M0].
  - assert (R : read_decimal (sign_text (negative (proj1_sig x)) ++ "0") = Some (negative (proj1_sig x), 0, 0)) by (destruct (negative _); reflexivity).
    rewrite R. unfold nearest_number. change (0 =? 0) with true. cbn iota.
    rewrite <- (make_ok x). f_equal. destruct (proj1_sig x) as [s m e]. cbn [mantissa exponent negative] in *. subst m. f_equal.
    destruct VC as [VC|VC]; [|congruence]. assert (0 < 2 ^ (bits - 1)) by (apply Z.pow_pos_nonneg; lia). lia.
  - assert (NP : 0 < numerator (proj1_sig x)). { unfold numerator. assert (0 < 2 ^ Z.max 0 (exponent (proj1_sig x))) by (apply Z.pow_pos_nonneg; lia). nia. }
    assert (DP : 0 < denominator (proj1_sig x)) by (apply Z.pow_pos_nonneg; lia).
    destruct (round_digits 10 _ None _ _) as (n, s) eqn:RD.
    destruct (round_digits_ok 10 (Z.of_nat p) None _ _ n s ltac:(lia) ltac:(lia) NP DP RD) as (NE & NB & NL).
    destruct (general_read (negative (proj1_sig x)) p n (s + (Z.of_nat p - 1)) P NB) as (v & k & RE & VV). rewrite RE.
    replace (s + (Z.of_nat p - 1) - (Z.of_nat p - 1)) with s in VV by lia.
    assert (0 < 10 ^ (Z.of_nat p - 1)) by (apply Z.pow_pos_nonneg; lia).
    assert (V0 : 0 < v).
    { apply lt_IZR. apply (Rmult_lt_reg_r (bpow 10 k)); [apply bpow_pos; lia|]. rewrite VV, Rmult_0_l. apply Rmult_lt_0_compat; [apply IZR_lt; lia|apply bpow_pos; lia]. }
    unfold nearest_number. destruct (Z.eqb_spec v 0) as [|_]; [lia|].
    destruct (round_digits 2 bits (Some emin) _ _) as (m, f) eqn:RB.
    assert (P1 : 0 < 10 ^ Z.max 0 k) by (apply Z.pow_pos_nonneg; lia). assert (P2 : 0 < 10 ^ Z.max 0 (- k)) by (apply Z.pow_pos_nonneg; lia).
    destruct (round_digits_ok 2 bits (Some emin) _ _ m f ltac:(lia) bits_pos (Z.mul_pos_pos _ _ V0 P1) P2 RB) as (ME & MB & ML & MC).
    assert (Q : quotient (v * 10 ^ Z.max 0 k) (10 ^ Z.max 0 (- k)) = (IZR n * bpow 10 s)%R).
    { pose proof (scaled_quotient 10 v 1 (- k) ltac:(lia) ltac:(lia)) as H1. rewrite Z.opp_involutive, Z.mul_1_l in H1. rewrite H1, <- VV. unfold quotient.
      pose proof (bpow_pos 10 (- k) ltac:(lia)) as PP. assert (E : (bpow 10 k * bpow 10 (- k) = 1)%R). { rewrite <- bpow_add by lia. replace (k + - k) with 0 by lia. reflexivity. }
      apply (Rmult_eq_reg_r (bpow 10 (- k))); [|lra]. rewrite (Rmult_assoc (IZR v)), E. field. lra. }
    rewrite Q in ME. rewrite value_quotient in NE.
    assert (SX : limited 2 bits (Some emin) (IZR (mantissa (proj1_sig x)) * bpow 2 (exponent (proj1_sig x)))).
    { exists (mantissa (proj1_sig x)), (exponent (proj1_sig x)). split; [lia|]. split; [lia|reflexivity]. }
    assert (EQ : (IZR m * bpow 2 f = IZR (mantissa (proj1_sig x)) * bpow 2 (exponent (proj1_sig x)))%R).
    { eapply (printed_read (limited 2 bits (Some emin)) bits (Z.of_nat p)); [lia|lia|exact HB| |exact SX| |exact ME].
      - intros y (m' & e' & H1 & _ & H2). exists m', e'. split; assumption.
      - destruct NE as (N1 & N2). split; [apply limited_decimal, N1|]. intros z Hz. apply N2, limited_decimal, Hz. }
    apply canonical in EQ; try assumption; [|lia].
    destruct EQ as (-> & ->). rewrite <- (make_ok x). f_equal. destruct (proj1_sig x) as [sg mm ee]. reflexivity.
Qed.

(** The characters of a text. *)
Definition number_char (c : ascii) : bool := is_digit c || existsb (Ascii.eqb c) ["-"; "+"; "."; "e"]%char.
Lemma digit_char s : all_chars is_digit s = true -> all_chars number_char s = true.
Proof.
  induction s as [|c s IH]; [reflexivity|]. cbn [all_chars]. intros H. apply andb_true_iff in H. destruct H as (A & B).
  rewrite (IH B). unfold number_char. rewrite A. reflexivity.
Qed.
Lemma print_chars p (x : float bits emin emax) : (1 <= p)%nat -> print bits emin emax p x <> "" /\ all_chars number_char (print bits emin emax p x) = true.
Proof.
  intros P. pose proof (proj2_sig x) as VX. cbn beta in VX. apply valid_spec in VX. destruct VX as (VM & VE & VC).
  assert (G : forall n e, 0 <= n -> general p n e <> "" /\ all_chars number_char (general p n e) = true).
  { intros n e N. destruct (digits_ok p n N) as (A & L & _). unfold general. set (s := digits p n) in *.
    assert (SL : String.length s = p) by (unfold len in L; lia).
    assert (FR : forall b, all_chars is_digit b = true -> all_chars number_char (fraction b) = true).
    { intros b B. destruct (strip_ok b) as (z & E). unfold fraction. rewrite E, all_app in B. apply andb_true_iff in B. destruct B as (B & _).
      destruct (strip b) as [|c t]; [reflexivity|]. cbn [all_chars]. apply digit_char in B. cbn [all_chars] in B. rewrite B. reflexivity. }
    assert (SUB : forall i m, all_chars is_digit (substring i m s) = true).
    { clear - A. induction s as [|c s IH]; intros i m; [destruct i, m; reflexivity|]. cbn [all_chars] in A. apply andb_true_iff in A. destruct A as (A & B).
      specialize (IH B). destruct i as [|i]; [destruct m as [|m]; [reflexivity|]|]; cbn [substring all_chars]; [rewrite A; apply IH|apply IH]. }
    assert (FST : forall i, (1 <= i <= p)%nat -> forall t, substring 0 i s ++ t <> "").
    { intros i Hi t H. pose proof (len_sub s 0 i ltac:(lia)) as L1. destruct (substring 0 i s); [cbn in L1; lia|discriminate H]. }
    destruct ((e <? -4) || (Z.of_nat p <=? e)) eqn:C.
    - split; [apply FST; lia|]. rewrite !all_app, (FR _ (SUB _ _)), (digit_char _ (SUB 0%nat 1%nat)). unfold exponent_text. rewrite !all_app.
      set (k := Nat.max 2 _). destruct (digits_ok k (Z.abs e) ltac:(lia)) as (A' & _). rewrite (digit_char _ A'). destruct (e <? 0); reflexivity.
    - apply orb_false_iff in C. destruct C as (C1 & C2). apply Z.ltb_ge in C1. apply Z.leb_gt in C2. destruct (Z.ltb_spec e 0) as [E|E].
      + split; [discriminate|]. destruct (zeros_ok (Z.to_nat (- e - 1))) as (ZA & _). rewrite all_app, FR; [reflexivity|]. rewrite all_app, ZA. exact A.
      + split; [apply FST; lia|]. rewrite all_app, (FR _ (SUB _ _)), (digit_char _ (SUB _ _)). reflexivity. }
  unfold print. destruct (Z.eqb_spec (mantissa (proj1_sig x)) 0) as [M0|M0]; [destruct (negative _); split; [discriminate|reflexivity|discriminate|reflexivity]|].
  destruct (round_digits 10 _ None _ _) as (n, s) eqn:RD.
  assert (NP : 0 < numerator (proj1_sig x)). { unfold numerator. assert (0 < 2 ^ Z.max 0 (exponent (proj1_sig x))) by (apply Z.pow_pos_nonneg; lia). nia. }
  assert (DP : 0 < denominator (proj1_sig x)) by (apply Z.pow_pos_nonneg; lia).
  destruct (round_digits_ok 10 (Z.of_nat p) None _ _ n s ltac:(lia) ltac:(lia) NP DP RD) as (_ & NB & _).
  destruct (G n (s + (Z.of_nat p - 1)) ltac:(lia)) as (G1 & G2). destruct (negative _); cbn [append].
  - split; [discriminate|]. cbn [all_chars]. exact G2.
  - split; assumption.
Qed.
End Format.
