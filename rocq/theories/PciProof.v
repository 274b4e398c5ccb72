(** Proofs about devices. *)
From Coq Require Import String Ascii List ZArith Bool Lia.
From Verif Require Import CuModel StrBase PciModel PciSpec.
Import ListNotations.
Open Scope Z_scope.

Lemma digit_ok z : 0 <= z < 16 -> digit_value (hex_digit z) = Some z /\ Ascii.eqb (hex_digit z) ":" = false.
Proof.
  intros H. assert (C : forallb (fun z => match digit_value (hex_digit z) with Some x => x =? z | None => false end && negb (Ascii.eqb (hex_digit z) ":")) (zrange 16) = true) by (vm_compute; reflexivity).
  rewrite forallb_forall in C. assert (I : In z (zrange 16)). { unfold zrange. apply in_map_iff. exists (Z.to_nat z). split; [lia|]. apply in_seq. cbn. lia. }
  specialize (C z I). apply andb_true_iff in C. destruct C as (C1 & C2). split.
  - destruct (digit_value (hex_digit z)); [|discriminate]. apply Z.eqb_eq in C1. congruence.
  - apply negb_true_iff in C2. exact C2.
Qed.
Lemma hex_value_app s : forall acc t, hex_value acc (s ++ t) = match hex_value acc s with Some x => hex_value x t | None => None end.
Proof. induction s as [|c s IH]; intros acc t; [reflexivity|]. cbn. destruct (digit_value c); [apply IH|reflexivity]. Qed.
Lemma hex_ok n : forall z, 0 <= z < 16 ^ Z.of_nat n -> hex_value 0 (hex n z) = Some z /\ has_char ":" (hex n z) = false.
Proof.
  induction n as [|n IH]; intros z H; [cbn in *; split; [f_equal; lia|reflexivity]|].
  rewrite Nat2Z.inj_succ, Z.pow_succ_r in H by lia. cbn [hex]. pose proof (Z.mod_pos_bound z 16 eq_refl) as M. destruct (digit_ok _ M) as (D1 & D2).
  rewrite hex_value_app, has_char_app. cbn [has_char hex_value]. rewrite D1, D2. destruct (Z.ltb_spec z 16).
  - cbn [hex_value has_char]. rewrite Z.mod_small by lia. split; [f_equal; lia|reflexivity].
  - destruct (IH (z / 16)) as (A & B).
    + split; [apply Z.div_pos; lia|]. apply Z.div_lt_upper_bound; lia.
    + rewrite A, B. split; [|reflexivity]. f_equal. pose proof (Z.div_mod z 16). lia.
Qed.
Lemma str_length_app (s t : string) : String.length (s ++ t) = (String.length s + String.length t)%nat.
Proof. induction s as [|c s IH]; [reflexivity|]. cbn. rewrite IH. reflexivity. Qed.
Lemma hex_length n : forall k z, 0 <= z < 16 ^ Z.of_nat k -> (0 < k)%nat -> (String.length (hex n z) <= k)%nat.
Proof.
  induction n as [|n IH]; intros k z H K; [cbn; lia|]. cbn [hex]. rewrite str_length_app. cbn [String.length]. destruct (Z.ltb_spec z 16); [cbn; lia|].
  destruct k as [|k]; [lia|]. rewrite Nat2Z.inj_succ, Z.pow_succ_r in H by lia. destruct k as [|k]; [cbn in H; lia|].
  pose proof (IH (S k) (z / 16)) as L. assert (String.length (hex n (z / 16)) <= S k)%nat; [|lia]. apply L; [|lia].
  split; [apply Z.div_pos; lia|]. apply Z.div_lt_upper_bound; lia.
Qed.
Lemma zeros_value n : forall s, hex_value 0 (zeros n ++ s) = hex_value 0 s.
Proof. induction n as [|n IH]; intros s; [reflexivity|]. exact (IH s). Qed.
Lemma zeros_plain n : has_char ":" (zeros n) = false.
Proof. induction n; [reflexivity|exact IHn]. Qed.
Lemma zeros_length n : String.length (zeros n) = n.
Proof. induction n as [|n IH]; [reflexivity|]. cbn. rewrite IH. reflexivity. Qed.
Lemma padded_ok w z : 0 <= z < 2 ^ 32 -> hex_value 0 (padded w z) = Some z /\ has_char ":" (padded w z) = false.
Proof.
  intros H. destruct (hex_ok 8 z) as (A & B); [exact H|]. unfold padded. cbv zeta. rewrite zeros_value, has_char_app, zeros_plain. split; [exact A|exact B].
Qed.
Lemma padded_length w z : (0 < w)%nat -> 0 <= z < 16 ^ Z.of_nat w -> String.length (padded w z) = w.
Proof. intros W H. unfold padded. cbv zeta. rewrite str_length_app, zeros_length. pose proof (hex_length 8 w z H W). lia. Qed.
Lemma u32_bound z : 0 <= u32 z < 2 ^ 32.
Proof. unfold u32. apply Z.mod_pos_bound. reflexivity. Qed.
Lemma three_parts d b s : has_char ":" d = false -> has_char ":" b = false -> has_char ":" s = false ->
  StrBase.split ":" (d ++ ":" ++ b ++ ":" ++ s) = [d; b; s].
Proof.
  intros A B C. change (":" ++ b ++ ":" ++ s)%string with (String ":" (b ++ String ":" s)). rewrite split_cons by exact A. rewrite split_cons by exact B. rewrite split_none by exact C. reflexivity.
Qed.
Lemma collect_ok n : forall i w, pending w = false -> (i + n <= List.length (devices w))%nat ->
  collect n i w = (w, inl (map (fun p => (name p, totalGlobalMem p)) (firstn n (skipn i (devices w))))).
Proof.
  induction n as [|n IH]; intros i w P L; [reflexivity|]. cbn [collect]. unfold seqc at 1, device_properties.
  destruct (nth_error (devices w) i) as [p|] eqn:E; [|apply nth_error_None in E; lia].
  assert (W : set_pending false w = w) by (unfold set_pending; destruct w; cbn in *; rewrite P; reflexivity).
  unfold seqc at 1, throw_on_error. rewrite P, W. unfold ret at 1. unfold seqc. rewrite (IH (S i) w P) by lia. unfold ret.
  assert (S : skipn i (devices w) = p :: skipn (S i) (devices w)).
  { clear - E. revert i E. generalize (devices w) as l. induction l as [|a l IH]; intros [|i] E; cbn in *; try discriminate; [congruence|]. exact (IH i E). }
  rewrite S. reflexivity.
Qed.
