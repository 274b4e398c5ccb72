(** Timestep blocks. *)
From Verif Require Import VtfSpec VtfTextProof VtfRangeProof VtfLineProof VtfProof.
From Coq Require Import Lia.
Open Scope string_scope.
Open Scope Z_scope.
Open Scope list_scope.

Section Step.
Variable F : Type.
Variable show : F -> string.
Variable cast : string -> option F.
Hypothesis Hprints : prints show cast.

Lemma read_row_value xs : read_row cast (row_text show xs) = if bad_row xs then Err MalformedFileException else Ok xs.
Proof.
  unfold bad_row. destruct (Nat.eqb (length xs) 3 || Nat.eqb (length xs) 6) eqn:E.
  - change (row_text show xs) with (row_line F show xs).
    rewrite (read_row_ok F show cast Hprints).
    + apply orb_true_iff in E. destruct E as [E|E]; rewrite E; rewrite ?andb_false_r; reflexivity.
    + apply orb_true_iff in E. rewrite !Nat.eqb_eq in E. exact E.
  - unfold read_row. change (row_text show xs) with (row_line F show xs).
    rewrite (row_words F show cast Hprints), map_length, firstn_map, (cast_all_show F show cast Hprints), E.
    cbn [bind]. apply orb_false_iff in E. destruct E as [-> ->]. reflexivity.
Qed.
Lemma read_rows_value rows : Forall (fun xs => xs <> []) rows -> forall k,
  read_rows cast k (map (row_text show) rows) =
  if existsb bad_row (firstn k rows) then Err MalformedFileException
  else Ok (firstn k rows, map (row_text show) (skipn k rows)).
Proof.
  induction rows as [|xs rows IH]; intros H k.
  - destruct k; reflexivity.
  - inversion H as [|? ? H1 H2]; subst. destruct k as [|k]; [reflexivity|].
    cbn [map read_rows firstn skipn existsb].
    destruct (row_strip F show cast Hprints xs H1) as [c [t [E1 E2]]].
    change (row_text show xs) with (row_line F show xs) in *.
    rewrite E1. rewrite <- E2. change (row_line F show xs) with (row_text show xs).
    rewrite read_row_value. destruct (bad_row xs); [reflexivity|]. cbn [bind orb].
    rewrite IH by exact H2. destruct (existsb bad_row (firstn k rows)); reflexivity.
Qed.
Lemma not_bad rows : existsb (@bad_row F) rows = false ->
  existsb (fun x : list F => Nat.eqb (length x) 3) rows && existsb (fun x => Nat.eqb (length x) 6) rows = mixed rows.
Proof.
  intros H. rewrite andb_comm. unfold mixed. f_equal.
  induction rows as [|xs rows IH]; [reflexivity|]. cbn [existsb forallb] in *.
  apply orb_false_iff in H. destruct H as [H1 H2]. rewrite (IH H2), negb_andb. f_equal.
  unfold bad_row in H1. unfold with_velocity. destruct (Nat.eqb_spec (length xs) 3) as [->|]; [reflexivity|].
  destruct (Nat.eqb (length xs) 6); [reflexivity|discriminate].
Qed.
(** A first line that does not raise an exception. *)
Lemma block_any h ls n rows : next_line (h :: ls) = Some (h, ls) -> check_header h = Ok tt ->
  ls = map (row_text show) rows -> Forall (fun xs => xs <> []) rows -> (0 < n)%nat ->
  readTimestepBlock cast (Z.of_nat n) (h :: ls) = block_meaning show n rows.
Proof.
  intros H1 H2 -> HR Hn. unfold readTimestepBlock, block_meaning. rewrite H1, H2. cbn [bind].
  destruct (Z.eqb_spec (Z.of_nat n) 0); [lia|]. rewrite Nat2Z.id, read_rows_value by exact HR.
  destruct (existsb bad_row (firstn n rows)) eqn:E; [reflexivity|]. cbn [bind].
  rewrite (not_bad _ E).
  destruct rows as [|xs rows]; [destruct n; reflexivity|]. destruct n as [|n]; [lia|].
  change (firstn (S n) (xs :: rows)) with (xs :: firstn n rows) at 1. cbv iota.
  destruct (mixed (firstn (S n) (xs :: rows))); [reflexivity|]. cbn [orb].
  rewrite firstn_length. destruct (Nat.ltb_spec (length (xs :: rows)) (S n)).
  - rewrite Nat.min_r by lia. destruct (Z.eqb_spec (Z.of_nat (length (xs :: rows))) (Z.of_nat (S n))); [lia|reflexivity].
  - rewrite Nat.min_l by lia. rewrite Z.eqb_refl. reflexivity.
Qed.
Lemma block_ordered h n rows : ordered_header h -> Forall (fun xs => xs <> []) rows -> (0 < n)%nat ->
  readTimestepBlock cast (Z.of_nat n) (h :: map (row_text show) rows) = block_meaning show n rows.
Proof.
  intros [a [b [Ha [Hb ->]]]] HR Hn. apply block_any; [| |reflexivity|exact HR|exact Hn];
    (destruct Ha as [<-|[<-|[<-|[<-|[]]]]]; destruct Hb as [<-|[<-|[<-|[]]]]; reflexivity).
Qed.
Lemma block_indexed h n ls : indexed_header h -> readTimestepBlock cast n (h :: ls) = Err UnimplementedException.
Proof.
  intros [a [b [Ha [Hb ->]]]].
  destruct Ha as [<-|[<-|[<-|[<-|[]]]]]; destruct Hb as [<-|[<-|[]]]; reflexivity.
Qed.
(** Any other word is taken for a header. *)
Lemma block_other h n rows : h <> "" -> plain h = true -> Forall (fun xs => xs <> []) rows -> (0 < n)%nat ->
  readTimestepBlock cast (Z.of_nat n) (h :: map (row_text show) rows) = block_meaning show n rows.
Proof.
  intros N P HR Hn. apply block_any; [| |reflexivity|exact HR|exact Hn].
  - cbn [next_line]. pose proof (strip_word h "" N P) as E. rewrite str_app_nil in E. rewrite E.
    destruct h; [congruence|reflexivity].
  - unfold check_header. rewrite words_one by (exact N || apply plain_blank, P).
    destruct (existsb (String.eqb h) ["t"; "timestep"; "c"; "coordinates"]); reflexivity.
Qed.
End Step.

(** Integers can be printed and read back. *)
Lemma integers_print : prints str_of_Z Z_of_str.
Proof.
  intros z. split; [apply Z_of_str_of_Z|]. split; [apply str_of_Z_nonempty|].
  unfold plain. apply (all_chars_imp (fun a => is_digit a || Ascii.eqb a "-")); [|apply str_of_Z_chars].
  intros a. destruct a as [[] [] [] [] [] [] [] []]; (reflexivity || discriminate).
Qed.
