(** C124, C125: accumulators in C++, as text and compared with those in Python. *)
From Coq Require Import String Ascii List ZArith Bool Reals Lia.
From Verif Require Import QcBase PyBase StrBase OtfsModel OtfsSpec DddaModel DddaSpec AxsModel CddModel CddSpec CddProof.
From Verif Require DigModel DddaTheorems.
Import ListNotations.
Open Scope string_scope.
Open Scope list_scope.
Open Scope Z_scope.

(** C124.  An accumulator is read from its text as it was, to the last bit. *)
Theorem ddda_text_read : forall debug x self, length (waits x) = length (blocks x) -> Z.of_nat (length (blocks x)) < 2 ^ 32 -> blocks x <> [] -> Forall sound (blocks x) ->
  exists text, serialize debug x = Value text /\ unserialize self text = (x, Value tt).
Proof. intros debug x self L B N F. destruct (serialized debug x L B N F) as (text & A & C). exists text. split; [exact A|]. apply unserialize_says. exact C. Qed.
Print Assumptions ddda_text_read.

(** Accepted is what has the format, and it gives what the text says, and only this. *)
Theorem ddda_text_accepted : forall self text x, unserialize self text = (x, Value tt) <-> says text x.
Proof. exact unserialize_says. Qed.
Print Assumptions ddda_text_accepted.
Theorem ddda_text_unique : forall text x y, says text x -> says text y -> x = y.
Proof. exact says_unique. Qed.
Print Assumptions ddda_text_unique.

(** Otherwise the accumulator does not change, and the exception is the documented one, except where nothing is defined. *)
Theorem ddda_text_refused : forall self text, (forall x, ~ says text x) ->
  unserialize self text = (self, if negb (has_char "|" text) && match DigModel.unsigned_cast 32 text with Some 1 => true | _ => false end then Undefined else Throw InvalidArgumentException).
Proof.
  intros self text N. destruct (unserialize self text) as [x c] eqn:U. pose proof U as U0. unfold unserialize in U.
  assert (NV : c <> Value tt) by (intros ->; apply (N x), (unserialize_says self), U0). clear U0.
  destruct (has_char "|" text) eqn:H.
  - cbn [negb andb]. destruct (DigModel.unsigned_cast 32 (nth 0 (StrBase.split "|" text) "")) as [v|]; [|congruence]. destruct (negb (v =? 1)); [congruence|].
    destruct (StrBase.split "|" text) as [|p [|q r]] eqn:P; [destruct (split_nonempty "|" text P)| |].
    + exfalso. clear - P H. revert p P. induction text as [|a t IH]; intros p P; [discriminate|]. cbn [has_char StrBase.split] in *. destruct (Ascii.eqb a "|") eqn:A; [|].
      * injection P as _ P. destruct (split_nonempty "|" t P).
      * rewrite ?(Ascii.eqb_sym "|" a), ?A in H. cbn [orb] in H. destruct (StrBase.split "|" t) as [|b l] eqn:T; [destruct (split_nonempty "|" t T)|]. destruct l; [|discriminate]. exact (IH H b eq_refl).
    + destruct (DigModel.unsigned_cast 32 q); [|congruence]. destruct (negb _); [congruence|]. destruct (read_blocks _); [|congruence]. destruct (read_waits _); congruence.
  - cbn [negb andb]. rewrite split_none in U by exact H. cbn [nth] in U. destruct (DigModel.unsigned_cast 32 text) as [v|]; [|congruence].
    destruct (Z.eqb_spec v 1) as [E1|NE]; cbn [negb] in U; [rewrite E1; congruence|]. destruct v as [|[p|p|]|p]; congruence.
Qed.
Print Assumptions ddda_text_refused.

(** C124 is false of texts like "1": they are not refused. *)
Theorem ddda_text_undefined_refuted : exists text, (forall x, ~ says text x) /\ forall self, unserialize self text = (self, Undefined).
Proof.
  exists "1". assert (U : forall self, unserialize self "1" = (self, Undefined)) by (intros; reflexivity). split; [|exact U].
  intros x H. apply (unserialize_says new_accumulator) in H. rewrite U in H. discriminate.
Qed.
Print Assumptions ddda_text_undefined_refuted.
(** It is also false that states that no data give are refused: here, no data, and five averages of two. *)
Theorem ddda_text_inconsistent_refuted : exists text x, (forall self, unserialize self text = (x, Value tt)) /\
  map (DigModel.sampleSize _ _ _) (blocks x) = [0; 5].
Proof.
  exists "1|2|1;0;0;0|1;5;1;0||".
  assert (X : exists x, unserialize new_accumulator "1|2|1;0;0;0|1;5;1;0||" = (x, Value tt) /\ map (DigModel.sampleSize _ _ _) (blocks x) = [0; 5]).
  { eexists. split; [vm_compute; reflexivity|reflexivity]. }
  destruct X as (x & U & B). exists x. split; [|exact B]. intros self. apply unserialize_says. apply unserialize_says in U. exact U.
Qed.
Print Assumptions ddda_text_inconsistent_refuted.

Definition ex_number (m e : Z) (h : DigModel.valid 53 (-1074) 971 (DigModel.Number false m e) = true) : DigModel.double := exist _ (DigModel.Number false m e) h.
Definition ex_accumulator : accumulator :=
  Accumulator [DigModel.State _ _ _ 3 (ex_number 7205759403792794 (-56) eq_refl) (ex_number 8796093022208000 (-43) eq_refl); DigModel.State _ _ _ 1 (ex_number 8796093022208000 (-43) eq_refl) zero]
    [Some (ex_number 7205759403792794 (-56) eq_refl); Some (ex_number 8796093022208000 (-43) eq_refl)].
Example ex_text : serialize true ex_accumulator = Value "1|2|1;3;0.10000000000000001;1000|1;1;1000;0|0.10000000000000001|1000" /\ Forall sound (blocks ex_accumulator).
Proof.
  split; [vm_compute; reflexivity|].
  apply Forall_cons; [|apply Forall_cons; [|apply Forall_nil]]; (split; [split; [discriminate|reflexivity]|split; [reflexivity|discriminate]]).
Qed.

(** C125.  What C++ returns for the blocks of an accumulator is what Python does; both complain in the same cases, except that without debugging, a block that there is not is not noticed in C++. *)
Theorem ddda_cpp_agrees : forall debug d id,
  agree debug (cpp_mean d) (ddda_mean d) /\ agree debug (cpp_hasBlockVariance debug d id) (hasBlockVariance d id) /\ agree debug (cpp_blockVariance debug d id) (blockVariance d id) /\
  agree debug (cpp_blockStandardError debug d id) (blockStandardError d id) /\ agree debug (cpp_blockStandardErrorDeviation debug d id) (blockStandardErrorDeviation d id).
Proof.
  intros debug d id. split; [apply mean_agree|]. split.
  - unfold cpp_hasBlockVariance, hasBlockVariance, checked. destruct (Nat.leb_spec id (maxBlockID d)); destruct (Nat.ltb_spec (maxBlockID d) id); try lia; reflexivity.
  - split; [apply variance_agree|]. split; [apply error_agree|apply error_deviation_agree].
Qed.
Print Assumptions ddda_cpp_agrees.

(** In terms of the data: the deviation and the error of the mean, of the averages of [2^id] consecutive data. *)
Theorem ddda_cpp_data : forall debug l id v, let d := fold_left ddda_add l ddda_new in
  (id <= Nat.log2 (length l))%nat -> spec_variance (block_data l id) = Ok v -> let n := INR (length (block_data l id)) in
  cpp_blockVariance debug d id = Value v /\ cpp_blockStandardDeviation debug d id = Value (sqrt (toR v)) /\
  cpp_blockStandardError debug d id = Value (sqrt (toR v) / sqrt n)%R /\ cpp_blockStandardErrorDeviation debug d id = Value (sqrt (toR v) / sqrt n / sqrt (2 * n))%R /\
  (id = 0%nat -> cpp_sampleStandardDeviation debug d = Value (sqrt (toR v))).
Proof.
  intros debug l id v d I V n. destruct (DddaTheorems.ddda_stream_correct l) as [LD A]. fold d in LD, A. unfold block_count in LD.
  destruct (A id ltac:(lia)) as [(N & _ & VV) _]. rewrite V in VV. destruct (ddda_cpp_agrees debug d id) as (_ & _ & B & C & D).
  assert (G : (2 <= getSampleSize (block d id))%nat) by (unfold getSampleVariance in VV; unfold getSampleSize; destruct (Nat.leb_spec (o_n (block d id)) 1); [discriminate|lia]).
  assert (H : Nat.ltb (maxBlockID d) id = false) by (apply Nat.ltb_ge; unfold maxBlockID; lia).
  assert (E1 : blockVariance d id = Ok v). { unfold blockVariance, hasBlockVariance. rewrite H. cbn [bind]. destruct (Nat.leb_spec 2 (getSampleSize (block d id))); [exact VV|lia]. }
  assert (E2 : blockStandardError d id = Ok (sqrt (toR v) / sqrt n)%R).
  { unfold blockStandardError, hasBlockVariance. rewrite H. cbn [bind]. destruct (Nat.leb_spec 2 (getSampleSize (block d id))); [|lia]. cbn [negb]. unfold standardError, standardDeviation. rewrite VV. cbn [bind]. rewrite N. reflexivity. }
  rewrite E1 in B. rewrite E2 in C. assert (SD : cpp_blockStandardDeviation debug d id = Value (sqrt (toR v))) by (unfold cpp_blockStandardDeviation; rewrite B; reflexivity).
  split; [exact B|]. split; [exact SD|]. split; [exact C|]. split; [|intros ->; exact SD].
  revert D. unfold blockStandardErrorDeviation, hasBlockVariance. rewrite H. cbn [bind]. destruct (Nat.leb_spec 2 (getSampleSize (block d id))); [|lia]. cbn [negb]. rewrite E2. cbn [bind agree]. rewrite N. intros D. exact D.
Qed.
Print Assumptions ddda_cpp_data.
(** The largest block that data give, as long as its size has 64 bits. *)
Theorem ddda_cpp_largest : forall l, let d := fold_left ddda_add l ddda_new in l <> [] -> (Nat.log2 (length l) < 64)%nat ->
  cpp_maxBlockSize d = Value (2 ^ Z.of_nat (Nat.log2 (length l))).
Proof.
  intros l d N L. destruct (DddaTheorems.ddda_stream_correct l) as [LD A]. fold d in LD, A. unfold block_count in LD. destruct (A 0%nat ltac:(lia)) as [(S & _) _].
  unfold cpp_maxBlockSize, ddda_size. rewrite S, DddaTheorems.ddda_block_data_length. cbn [Nat.pow]. rewrite Nat.div_1_r. destruct l as [|a l]; [contradiction|]. cbn [length Nat.eqb].
  unfold maxBlockID. rewrite LD. cbn [Nat.sub]. rewrite Nat.sub_0_r. destruct (Z.ltb_spec (Z.of_nat (Nat.log2 (length (a :: l)))) 64); [reflexivity|lia].
Qed.
Print Assumptions ddda_cpp_largest.
(** Without debugging, other blocks are not noticed. *)
Theorem ddda_cpp_undefined_refuted : forall d id, (maxBlockID d < id)%nat -> cpp_blockVariance false d id = Undefined /\ blockVariance d id = Err ValueError.
Proof.
  intros d id L. unfold cpp_blockVariance, checked, blockVariance, hasBlockVariance. destruct (Nat.leb_spec id (maxBlockID d)); [lia|]. destruct (Nat.ltb_spec (maxBlockID d) id); [|lia]. split; reflexivity.
Qed.
Print Assumptions ddda_cpp_undefined_refuted.
Example ex_statistics : match spec_variance (block_data (map qz [1; 3; 5; 9; 2; 4; 7]) 1) with Ok v => qeqb v (qz 7) | Err _ => false end = true /\ (1 <= Nat.log2 7)%nat.
Proof. split; [vm_compute; reflexivity|apply Nat.leb_le; reflexivity]. Qed.
