(** Proofs about accumulators in C++. *)
From Coq Require Import String Ascii List ZArith Bool Reals Lia.
From Verif Require Import QcBase PyBase StrBase OtfsModel DddaModel AxsModel CddModel CddSpec.
From Verif Require DigModel DigSpec DigProof DigRoundProof DigTextProof DigTheorems DddaProof.
Import ListNotations.
Open Scope string_scope.
Open Scope list_scope.
Open Scope Z_scope.

Lemma number_bar x : has_char "|" (DigModel.double_text DigModel.file_precision x) = false /\ DigModel.double_text DigModel.file_precision x <> "".
Proof.
  destruct (DigTextProof.print_chars 53 (-1074) 971 ltac:(lia) DigModel.file_precision x ltac:(apply Nat.leb_le; reflexivity)) as (N & C).
  split; [|exact N]. apply (all_chars_has _ _ _ C). reflexivity.
Qed.
Lemma block_bar b : has_char "|" (DigModel.serializeToString 53 (-1074) 971 b) = false.
Proof.
  unfold DigModel.serializeToString. rewrite !has_char_app, str_of_Z_no by reflexivity. 
  pose proof (fun x => proj1 (number_bar x)) as N. unfold DigModel.double_text, DigModel.file_precision in N. rewrite !N. reflexivity.
Qed.
Lemma block_read b : sound b -> says_block (DigModel.serializeToString _ _ _ b) b.
Proof. intros (A & B & C). exact (DigTheorems.accumulator_text_read b A B C). Qed.
Definition wait_text (w : waiting_state) : string := match w with Some x => DigModel.double_text DigModel.file_precision x | None => "" end.
Lemma wait_read w : says_waiting (wait_text w) w.
Proof. destruct w as [x|]; [|reflexivity]. split; [apply number_bar|]. apply DigTheorems.number_text_read. Qed.

Lemma read_blocks_iff ps bs : read_blocks ps = Some bs <-> Forall2 says_block ps bs.
Proof.
  revert bs. induction ps as [|p ps IH]; intros bs; cbn [read_blocks].
  - split; [intros [= <-]; constructor|intros H; inversion H; reflexivity].
  - split.
    + destruct (DigModel.unserializeFromString _ _ _ p) as [b|] eqn:E; [|discriminate]. destruct (read_blocks ps) as [r|]; [|discriminate]. intros [= <-]. constructor; [exact E|apply IH; reflexivity].
    + intros H. inversion H as [|? b ? r E F]; subst. rewrite E. apply IH in F. rewrite F. reflexivity.
Qed.
Lemma read_waits_iff ps ws : read_waits ps = Some ws <-> Forall2 says_waiting ps ws.
Proof.
  revert ws. induction ps as [|p ps IH]; intros ws; cbn [read_waits].
  - split; [intros [= <-]; constructor|intros H; inversion H; reflexivity].
  - assert (L : Nat.ltb 0 (String.length p) = negb (String.eqb p "")) by (destruct p; reflexivity). rewrite L. split.
    + destruct (String.eqb_spec p "") as [E|E]; cbn [negb].
      * destruct (read_waits ps) as [r|]; [|discriminate]. intros [= <-]. constructor; [exact E|apply IH; reflexivity].
      * destruct (DigModel.double_cast p) as [x|] eqn:X; [|discriminate]. destruct (read_waits ps) as [r|]; [|discriminate]. intros [= <-]. constructor; [split; assumption|apply IH; reflexivity].
    + intros H. inversion H as [|? w ? r W F]; subst. apply IH in F. destruct w as [x|]; cbn in W.
      * destruct W as [NE X]. destruct (String.eqb_spec p ""); [contradiction|]. cbn [negb]. rewrite X, F. reflexivity.
      * subst p. cbn. rewrite F. reflexivity.
Qed.
Lemma Forall2_len {A B} (P : A -> B -> Prop) l m : Forall2 P l m -> length l = length m.
Proof. induction 1; cbn; congruence. Qed.

Lemma unsigned_nonneg w s n : DigModel.unsigned_cast w s = Some n -> 0 <= n < 2 ^ w.
Proof.
  unfold DigModel.unsigned_cast. set (t := match s with String "+" r => r | _ => s end). destruct (negb (String.eqb t "") && all_chars is_digit t) eqn:E; [|discriminate].
  apply andb_true_iff in E as [_ D]. destruct (Z_of_str t) as [z|] eqn:Z; [|discriminate]. destruct (Z.ltb_spec z (2 ^ w)); [|discriminate]. intros [= <-]. split; [|assumption].
  unfold Z_of_str in Z. destruct t as [|c r]; [discriminate|]. cbn [all_chars] in D. apply andb_true_iff in D as [D _]. unfold DecimalString.NilZero.int_of_string in Z.
  destruct (Ascii.eqb_spec c "-") as [->|NC]; [discriminate D|]. destruct (DecimalString.NilZero.uint_of_string (String c r)) as [u|]; [|discriminate]. cbn [option_map] in Z. injection Z as <-. cbn [Z.of_int]. unfold Z.of_uint. apply N2Z.is_nonneg.
Qed.

Lemma unserialize_says self text x : unserialize self text = (x, Value tt) <-> says text x.
Proof.
  unfold unserialize. split.
  - destruct (DigModel.unsigned_cast 32 (nth 0 (StrBase.split "|" text) "")) as [v|] eqn:V; [|discriminate].
    destruct (Z.eqb_spec v 1) as [->|]; [|discriminate]. cbn [negb]. destruct (StrBase.split "|" text) as [|p [|count rest]] eqn:P; [discriminate|discriminate|]. cbn [nth] in V.
    destruct (DigModel.unsigned_cast 32 count) as [n|] eqn:C; [|discriminate]. pose proof (unsigned_nonneg _ _ _ C) as N.
    destruct (Z.eqb_spec (Z.of_nat (length (p :: count :: rest))) (2 + 2 * n)) as [L|]; [|discriminate]. cbn [negb]. cbn [length] in L.
    destruct (read_blocks _) as [bs|] eqn:B; [|discriminate]. destruct (read_waits _) as [ws|] eqn:W; [|discriminate]. intros [= <-].
    exists p, count, (firstn (Z.to_nat n) rest), (skipn (Z.to_nat n) rest), bs, ws. rewrite firstn_skipn. apply read_blocks_iff in B. apply read_waits_iff in W.
    assert (L1 : length (firstn (Z.to_nat n) rest) = Z.to_nat n) by (apply firstn_length_le; lia). assert (L2 : length (skipn (Z.to_nat n) rest) = Z.to_nat n) by (rewrite skipn_length; lia).
    rewrite L1, L2, Z2Nat.id by lia. repeat split; try assumption. destruct (Z.eqb_spec n 0) as [->|NZ]; [reflexivity|]. destruct (firstn (Z.to_nat n) rest) eqn:E; [cbn in L1; lia|reflexivity].
  - intros (version & count & bs & ws & b & w & P & V & C & L & B & W & ->). rewrite P. cbn [nth]. rewrite V, C. cbn [negb Z.eqb Pos.eqb].
    assert (LL : Z.of_nat (length (version :: count :: bs ++ ws)) = 2 + 2 * Z.of_nat (length bs)) by (cbn [length]; rewrite app_length, L; lia).
    rewrite LL, Z.eqb_refl, Nat2Z.id. cbn [negb]. rewrite firstn_app, firstn_all, Nat.sub_diag, app_nil_r, skipn_app, skipn_all, Nat.sub_diag. cbn [app skipn firstn].
    apply read_blocks_iff in B. rewrite ?app_nil_r, B. apply read_waits_iff in W. rewrite W. destruct bs; [reflexivity|]. cbn [length]. destruct (Z.eqb_spec (Z.of_nat (S (length bs))) 0); [lia|reflexivity].
Qed.

Lemma blocks_text_cat bs : blocks_text bs = String.concat "" (map (fun s => "|" ++ s)%string (map (fun b => DigModel.serializeToString 53 (-1074) 971 b) bs)).
Proof. induction bs as [|b bs IH]; [reflexivity|]. cbn [blocks_text map]. rewrite IH, DddaProof.concat_cons. cbn. reflexivity. Qed.
Lemma waits_text_cat ws : waits_text (length ws) ws = Value (String.concat "" (map (fun s => "|" ++ s)%string (map wait_text ws))).
Proof. induction ws as [|w ws IH]; [reflexivity|]. cbn [waits_text length map]. rewrite IH. cbn [andthen]. rewrite DddaProof.concat_cons. reflexivity. Qed.

Lemma serialized debug x : length (waits x) = length (blocks x) -> Z.of_nat (length (blocks x)) < 2 ^ 32 -> blocks x <> [] -> Forall sound (blocks x) ->
  exists text, serialize debug x = Value text /\ says text x.
Proof.
  intros L S N F. unfold serialize. pose proof (waits_text_cat (waits x)) as WT. rewrite L in WT |- *. rewrite Nat.eqb_refl, andb_false_r, WT. cbn [andthen]. eexists. split; [reflexivity|].
  exists "1", (str_of_Z (Z.of_nat (length (blocks x)))), (map (fun b => DigModel.serializeToString 53 (-1074) 971 b) (blocks x)), (map wait_text (waits x)), (blocks x), (waits x).
  rewrite !map_length. repeat split.
  - assert (T : ("1|" ++ str_of_Z (Z.of_nat (length (blocks x))) ++ blocks_text (blocks x) ++ String.concat "" (map (fun s => "|" ++ s) (map wait_text (waits x))))%string
      = join "|" ("1" :: str_of_Z (Z.of_nat (length (blocks x))) :: map (fun b => DigModel.serializeToString 53 (-1074) 971 b) (blocks x) ++ map wait_text (waits x))).
    { rewrite DddaProof.join_concat. cbn [map]. rewrite DddaProof.concat_cons, map_app, DddaProof.concat_app, blocks_text_cat. rewrite !str_app_assoc. reflexivity. }
    rewrite T. apply split_join; [discriminate|]. intros s I. destruct I as [<-|[<-|I]]; [reflexivity|apply str_of_Z_no; reflexivity|]. apply in_app_or in I as [I|I]; apply in_map_iff in I as (y & <- & _).
    + apply block_bar.
    + destruct y; [apply number_bar|reflexivity].
  - apply DigTheorems.unsigned_text. split; [apply Zle_0_nat|exact S].
  - rewrite ?L; reflexivity.
  - clear - F. induction F; cbn [map]; [constructor|]. constructor; [apply block_read; assumption|assumption].
  - generalize (waits x). intros ws. induction ws; cbn [map]; [constructor|]. constructor; [apply wait_read|assumption].
  - destruct x as [[|b bs] ws]; [contradiction|reflexivity].
Qed.

Lemma says_unique text x y : says text x -> says text y -> x = y.
Proof. intros A B. apply (unserialize_says new_accumulator) in A, B. congruence. Qed.

(** ** Statistics *)
Lemma variance_agree debug d id : agree debug (cpp_blockVariance debug d id) (blockVariance d id).
Proof.
  unfold cpp_blockVariance, cpp_hasBlockVariance, checked, blockVariance, hasBlockVariance. destruct (Nat.leb_spec id (maxBlockID d)) as [L|L].
  - assert (E : Nat.ltb (maxBlockID d) id = false) by (apply Nat.ltb_ge; exact L). rewrite E. cbn [andthen bind]. destruct (Nat.leb_spec 2 (getSampleSize (block d id))) as [G|G]; cbn [negb]; [|reflexivity].
    unfold getSampleVariance, cpp_getSampleVariance. unfold getSampleSize in *. destruct (Nat.leb_spec (o_n (block d id)) 1); [lia|]. destruct (Nat.ltb_spec (o_n (block d id)) 2); [lia|]. reflexivity.
  - assert (E : Nat.ltb (maxBlockID d) id = true) by (apply Nat.ltb_lt; exact L). rewrite E. cbn. reflexivity.
Qed.

Lemma error_agree debug d id : agree debug (cpp_blockStandardError debug d id) (blockStandardError d id).
Proof.
  unfold cpp_blockStandardError, cpp_hasBlockVariance, checked, blockStandardError, hasBlockVariance. destruct (Nat.leb_spec id (maxBlockID d)) as [L|L].
  - assert (E : Nat.ltb (maxBlockID d) id = false) by (apply Nat.ltb_ge; exact L). rewrite E. cbn [andthen bind]. destruct (Nat.leb_spec 2 (getSampleSize (block d id))) as [G|G]; cbn [negb]; [|reflexivity].
    unfold cpp_standardError, standardError, standardDeviation, getSampleVariance, cpp_getSampleVariance. unfold getSampleSize in *.
    destruct (Nat.leb_spec (o_n (block d id)) 1); [lia|]. destruct (Nat.ltb_spec (o_n (block d id)) 2); [lia|]. destruct (Nat.eqb_spec (o_n (block d id)) 0); [lia|]. rewrite andb_false_r. reflexivity.
  - assert (E : Nat.ltb (maxBlockID d) id = true) by (apply Nat.ltb_lt; exact L). rewrite E. reflexivity.
Qed.
Lemma error_deviation_agree debug d id : agree debug (cpp_blockStandardErrorDeviation debug d id) (blockStandardErrorDeviation d id).
Proof.
  pose proof (error_agree debug d id) as A. unfold cpp_blockStandardErrorDeviation, blockStandardErrorDeviation, cpp_hasBlockVariance, hasBlockVariance, checked. destruct (Nat.leb_spec id (maxBlockID d)) as [L|L].
  - assert (E : Nat.ltb (maxBlockID d) id = false) by (apply Nat.ltb_ge; exact L). rewrite E. cbn [andthen bind]. destruct (Nat.leb_spec 2 (getSampleSize (block d id))) as [G|G]; cbn [negb]; [|reflexivity].
    destruct (blockStandardError d id) as [se|e] eqn:SE.
    + cbn [agree] in A. rewrite A. cbn [andthen bind agree]. rewrite mult_INR. reflexivity.
    + exfalso. revert SE. unfold blockStandardError, hasBlockVariance. rewrite E. cbn [bind]. destruct (Nat.leb_spec 2 (getSampleSize (block d id))); [|lia]. cbn [negb].
      unfold standardError, standardDeviation, getSampleVariance. unfold getSampleSize in *. destruct (Nat.leb_spec (o_n (block d id)) 1); [lia|]. discriminate.
  - assert (E : Nat.ltb (maxBlockID d) id = true) by (apply Nat.ltb_lt; exact L). rewrite E. reflexivity.
Qed.
Lemma mean_agree debug d : agree debug (cpp_mean d) (ddda_mean d).
Proof.
  unfold cpp_mean, ddda_mean, getSampleMean, ddda_size. destruct (Nat.eqb_spec (getSampleSize (block d 0)) 0) as [E|E]; [reflexivity|].
  unfold getSampleSize in *. destruct (Nat.eqb_spec (o_n (block d 0)) 0); [contradiction|]. reflexivity.
Qed.
