(** Proofs about the program that writes tables of transverse velocity correlation functions. *)
From Coq Require Import String Ascii List ZArith Bool Reals Lra Lia Sorting.Sorted.
From Verif Require Import PyBase StrBase VecModel VecSpec VecProof VtfModel VtfSpec VtfPyModel FourModel TvcModel TvcSpec TvcTextProof TvcProof TvcRunProof CfgModel RsvModel AnaModel AnaSpec AnaProof.
Import ListNotations.
Open Scope list_scope.
Open Scope R_scope.

(** * Texts *)
Lemma lines_cons a l : lines (a :: l) = (a ++ String newline "" ++ lines l)%string.
Proof. unfold lines. destruct l as [|b l]; cbn [map String.concat]; [reflexivity|]. rewrite <- !str_app_assoc. reflexivity. Qed.
Lemma lines_app a b : lines (a ++ b) = (lines a ++ lines b)%string.
Proof. induction a as [|x a IH]; [reflexivity|]. cbn [app]. rewrite !lines_cons, IH. rewrite <- !str_app_assoc. reflexivity. Qed.
Lemma listed_rest dirs : listed false dirs = String.concat "" (map (fun s => ", " ++ s)%string (quoted "'" dirs)).
Proof.
  induction dirs as [|d dirs IH]; [reflexivity|]. cbn [listed quoted map]. rewrite IH. destruct dirs as [|e dirs]; [reflexivity|]. cbn [quoted map String.concat].
  rewrite <- !str_app_assoc. reflexivity.
Qed.
Lemma concat_rest sep l : forall a, String.concat sep (a :: l) = (a ++ String.concat "" (map (fun s => sep ++ s)%string l))%string.
Proof.
  induction l as [|b l IH]; intros a; [cbn; rewrite str_app_nil; reflexivity|]. change (String.concat sep (a :: b :: l)) with (a ++ sep ++ String.concat sep (b :: l))%string.
  rewrite IH. cbn [map]. destruct l as [|c l]; cbn [map String.concat]; rewrite <- ?str_app_assoc; [rewrite str_app_nil; reflexivity|reflexivity].
Qed.
Lemma listed_all dirs : listed true dirs = String.concat ", " (quoted "'" dirs).
Proof.
  destruct dirs as [|d dirs]; [reflexivity|]. cbn [listed quoted map]. rewrite concat_rest, listed_rest. rewrite <- !str_app_assoc. reflexivity.
Qed.
Lemma json_rest dirs : json_listed false dirs = String.concat "" (map (fun s => ("," ++ String newline "") ++ s)%string (quoted """" dirs)).
Proof.
  induction dirs as [|d dirs IH]; [reflexivity|]. cbn [json_listed quoted map]. rewrite IH. destruct dirs as [|e dirs]; [reflexivity|]. cbn [quoted map String.concat].
  rewrite <- !str_app_assoc. reflexivity.
Qed.
Lemma json_all dirs : json_listed true dirs = String.concat ("," ++ String newline "") (quoted """" dirs).
Proof. destruct dirs as [|d dirs]; [reflexivity|]. cbn [json_listed quoted map]. rewrite concat_rest, json_rest. rewrite <- !str_app_assoc. reflexivity. Qed.

(** * Sums by wave vector *)
Definition total_of {A} (w : A -> nat) (l : list A) : nat := fold_right (fun a n => (w a + n)%nat) 0%nat l.
Lemma total_indicator {A} (dec : forall a b : A, {a = b} + {a <> b}) (x : A) n : forall ks, NoDup ks -> In x ks ->
  total_of (fun k => if dec x k then n else 0%nat) ks = n.
Proof.
  induction ks as [|k ks IH]; intros N I; [destruct I|]. inversion N as [|? ? NI N']. subst. unfold total_of in *. cbn [fold_right]. destruct (dec x k) as [->|D].
  - assert (Z0 : fold_right (fun a m => ((if dec k a then n else 0) + m)%nat) 0%nat ks = 0%nat); [|lia].
    clear - NI. induction ks as [|j ks IH]; [reflexivity|]. cbn [fold_right]. destruct (dec k j) as [<-|_]; [exfalso; apply NI; left; reflexivity|]. apply IH. intros I. apply NI. right. exact I.
  - rewrite IH; [reflexivity|exact N'|]. destruct I as [->|I]; [congruence|exact I].
Qed.
Lemma total_add {A} (f g : A -> nat) l : total_of (fun a => (f a + g a)%nat) l = (total_of f l + total_of g l)%nat.
Proof. induction l as [|a l IH]; [reflexivity|]. unfold total_of in *. cbn [fold_right]. rewrite IH. lia. Qed.
Lemma total_ext {A} (f g : A -> nat) l : (forall a, f a = g a) -> total_of f l = total_of g l.
Proof. intros H. induction l as [|a l IH]; [reflexivity|]. unfold total_of in *. cbn [fold_right]. rewrite IH, H. reflexivity. Qed.
Lemma total_group {A B} (dec : forall a b : B, {a = b} + {a <> b}) (key : A -> B) (w : A -> nat) ks : NoDup ks -> forall l, (forall a, In a l -> In (key a) ks) ->
  total_of (fun k => total_of w (filter (fun a => if dec (key a) k then true else false) l)) ks = total_of w l.
Proof.
  intros N. induction l as [|a l IH]; intros H.
  - clear. induction ks as [|k ks IH]; [reflexivity|exact IH].
  - transitivity (total_of (fun k => ((if dec (key a) k then w a else 0) + total_of w (filter (fun a => if dec (key a) k then true else false) l))%nat) ks).
    + apply total_ext. intros k. cbn [filter]. destruct (dec (key a) k); reflexivity.
    + rewrite total_add, (total_indicator dec) by (try exact N; apply H; left; reflexivity). rewrite IH by (intros b I; apply H; right; exact I). reflexivity.
Qed.
Lemma count_total l : measurement_count l = total_of (@length _) l.
Proof.
  unfold measurement_count. assert (G : forall n, fold_left (fun n set => (n + length set)%nat) l n = (n + total_of (@length _) l)%nat); [|apply G].
  induction l as [|a l IH]; intros n; cbn [fold_left]; [unfold total_of; cbn [fold_right]; lia|]. rewrite IH. unfold total_of. cbn [fold_right]. lia.
Qed.
Lemma total_flat {A B} (f : A -> list B) l : total_of (fun a => length (f a)) l = length (flat_map f l).
Proof. induction l as [|a l IH]; [reflexivity|]. unfold total_of in *. cbn [fold_right flat_map]. rewrite app_length, IH. reflexivity. Qed.
Lemma total_map {A B} (f : A -> B) w l : total_of w (map f l) = total_of (fun a => w (f a)) l.
Proof. induction l as [|a l IH]; [reflexivity|]. unfold total_of in *. cbn [map fold_right]. rewrite IH. reflexivity. Qed.
Lemma sorted_nodup ks : StronglySorted lex3 ks -> NoDup ks.
Proof.
  induction ks as [|k ks IH]; intros H; [constructor|]. inversion H as [|? ? H' F]. subst. constructor; [|apply IH, H']. intros I. rewrite Forall_forall in F. exact (lex3_irrefl k (F k I)).
Qed.

Section Program.
Variables (F : Type) (value : F -> R) (show : F -> string) (read : string -> option F).
Hypothesis P : prints show read.
Variables (directory : string -> option (list string)) (regular : string -> option string) (decompressed : string -> string) (writable : string -> bool).
Variables (load : string -> outcome (setting F)) (neg : Z -> option Z).
Variables (text17 text6 : R -> string) (nan : string) (sd block err rel : list R -> string).
Notation table_text := (table_text text17 nan sd block err rel).
Notation row := (correlation_row text17 sd block err rel).
Notation tables_loop := (tables_loop F value read writable text17 text6 nan sd block err rel).
Notation program := (program F value read directory regular decompressed writable load neg text17 text6 nan sd block err rel).
Notation write_plotfiles := (write_plotfiles F value read directory regular decompressed writable load neg text17 text6 nan sd block err rel).

Lemma header_lines dirs k box kT dt n : header text17 dirs k box kT dt n = lines (preamble text17 dirs k box kT dt n).
Proof.
  destruct box as [[x y] z]. unfold header, preamble, line. rewrite listed_all. cbn [map app fst snd]. rewrite !lines_cons. rewrite <- !str_app_assoc. reflexivity.
Qed.
Lemma table_step c t (data : list R) r : (2 <= length data)%nat ->
  let c' := if Req_EM_T c 0 then mean_of data else c in c' <> 0 ->
  table_text c ((t, data) :: r) = let (rows, ok) := table_text c' r in ((lines [row t c' data] ++ rows)%string, ok).
Proof.
  intros L c' N. cbn [AnaModel.table_text]. destruct data as [|a [|b data]]; [cbn in L; lia|cbn in L; lia|]. change (sample_mean (a :: b :: data)) with (mean_of (a :: b :: data)). fold c'.
  destruct (table_text c' r) as [rows ok]. destruct (Req_EM_T c' 0); [contradiction|]. f_equal. rewrite lines_cons. unfold correlation_row, entry, line, tab. cbn [String.concat].
  rewrite <- !str_app_assoc. reflexivity.
Qed.
Lemma table_rows (data : nat -> list R) c dt : c <> 0 -> forall n i, (forall s, (i <= s < i + n)%nat -> (2 <= length (data s))%nat) -> forall r,
  table_text c (map (fun s => (INR s * dt, data s)) (seq i n) ++ r)
  = let (rows, ok) := table_text c r in ((lines (map (fun s => row (INR s * dt) c (data s)) (seq i n)) ++ rows)%string, ok).
Proof.
  intros C. induction n as [|n IH]; intros i H r; [cbn [seq map app]; destruct (table_text c r); reflexivity|]. cbn [seq map app].
  pose proof (table_step c (INR i * dt) (data i) (map (fun s => (INR s * dt, data s)) (seq (Datatypes.S i) n) ++ r) ltac:(apply H; lia)) as St. cbv zeta in St.
  destruct (Req_EM_T c 0); [contradiction|]. rewrite St by exact C. rewrite IH by (intros; apply H; lia). destruct (table_text c r) as [rows ok]. f_equal.
  rewrite !lines_cons, <- !str_app_assoc. reflexivity.
Qed.
Lemma table_start (data : nat -> list R) dt n r : mean_of (data 0%nat) <> 0 -> (0 < n)%nat -> (forall s, (s < n)%nat -> (2 <= length (data s))%nat) ->
  table_text 0 (map (fun s => (INR s * dt, data s)) (seq 0 n) ++ r)
  = let (rows, ok) := table_text (mean_of (data 0%nat)) r in ((lines (map (fun s => row (INR s * dt) (mean_of (data 0%nat)) (data s)) (seq 0 n)) ++ rows)%string, ok).
Proof.
  intros C L H. destruct n as [|n]; [lia|]. cbn [seq map app]. pose proof (table_step 0 (INR 0 * dt) (data 0%nat) (map (fun s => (INR s * dt, data s)) (seq 1 n) ++ r) ltac:(apply H; lia)) as St. cbv zeta in St.
  destruct (Req_EM_T 0 0); [|lra]. rewrite St by exact C. rewrite table_rows by (try exact C; intros; apply H; lia). destruct (table_text (mean_of (data 0%nat)) r) as [rows ok]. f_equal.
  rewrite !lines_cons, <- !str_app_assoc. reflexivity.
Qed.
Lemma table_all (data : nat -> list R) dt n : mean_of (data 0%nat) <> 0 -> (forall s, (s < n)%nat -> (2 <= length (data s))%nat) ->
  table_text 0 (map (fun s => (INR s * dt, data s)) (seq 0 n)) = (lines (map (fun s => row (INR s * dt) (mean_of (data 0%nat)) (data s)) (seq 0 n)), true).
Proof.
  intros C H. destruct n as [|n]; [reflexivity|]. rewrite <- (app_nil_r (map (fun s => (INR s * dt, data s)) _)). rewrite table_start by (try assumption; lia). cbn [AnaModel.table_text].
  rewrite str_app_nil. reflexivity.
Qed.
(** Whether there is an exception is as in TvcModel.v. *)
Lemma table_status tv : forall c, snd (table_text c tv) = match snd (write_rows c tv) with None => true | Some _ => false end.
Proof.
  induction tv as [|[t data] tv IH]; intros c; [reflexivity|]. cbn [AnaModel.table_text write_rows]. destruct data as [|a [|b data]]; [reflexivity|reflexivity|]. cbn [length Nat.leb].
  set (c' := if Req_EM_T c 0 then sample_mean (a :: b :: data) else c). specialize (IH c'). destruct (table_text c' tv) as [rows ok], (write_rows c' tv) as [rows' e]. exact IH.
Qed.
Lemma loop_status dirs base box kT m dt n : forall l total,
  snd (tables_loop dirs base box kT m dt n l total) = match snd (plot_loop F value read box m dt n l) with None => true | Some _ => false end.
Proof.
  induction l as [|[k files] l IH]; intros total; [reflexivity|]. cbn [AnaModel.tables_loop plot_loop]. unfold writePlotfile, getTVACFFT.
  destruct (read_files F value read files (complex_vector (plot_wave_vector box k)) m) as [ms|e]; cbn [bind]; [|reflexivity].
  set (tv := map (fun stride => (INR stride * dt, stride_data ms stride)) (seq 0 n)). pose proof (table_status tv 0) as T. destruct (table_text 0 tv) as [table ok], (write_rows 0 tv) as [rows e]. cbn [snd] in T. subst ok.
  destruct e as [e|]; [reflexivity|]. specialize (IH (total + measurement_count ms)%nat).
  destruct (tables_loop dirs base box kT m dt n l (total + measurement_count ms)%nat) as [[more tot] ok], (plot_loop F value read box m dt n l) as [tables e]. exact IH.
Qed.
Lemma loop_names dirs base box kT m dt n : forall l total w, In w (fst (fst (tables_loop dirs base box kT m dt n l total))) ->
  writable (fst w) = true /\ exists k, In k (map fst l) /\ fst w = table_name text6 base k.
Proof.
  induction l as [|[k files] l IH]; intros total w; cbn [AnaModel.tables_loop]; [intros []|].
  destruct (read_files F value read files (complex_vector (plot_wave_vector box k)) m) as [ms|e]; [|intros []].
  destruct (table_text 0 _) as [table ok].
  assert (W : forall t, In w (write writable (table_path text6 base k) t) -> writable (fst w) = true /\ exists k0, In k0 (map fst ((k, files) :: l)) /\ fst w = table_name text6 base k0).
  { intros t. unfold write. destruct (writable (table_path text6 base k)) eqn:E; intros I; [|destruct I]. destruct I as [<-|[]]. split; [exact E|]. exists k. split; [left; reflexivity|reflexivity]. }
  destruct ok; [|apply W]. specialize (IH (total + measurement_count ms)%nat w). destruct (tables_loop dirs base box kT m dt n l (total + measurement_count ms)%nat) as [[more tot] ok].
  cbn [fst snd] in *. intros I. apply in_app_or in I. destruct I as [I|I]; [eapply W, I|]. destruct (IH I) as (A & k0 & B & C). split; [exact A|]. exists k0. split; [right; exact B|exact C].
Qed.
Lemma write_filter p t : write writable p t = filter (fun w => writable (fst w)) [(p, t)].
Proof. unfold write. cbn [filter fst]. destruct (writable p); reflexivity. Qed.
Lemma given_filter o t : write_unless_empty writable (match o with Some s => s | None => ""%string end) t = filter (fun w => writable (fst w)) (given o t).
Proof. unfold write_unless_empty, given. destruct o as [p|]; [|reflexivity]. destruct (String.eqb p ""); [reflexivity|apply write_filter]. Qed.
Lemma metadata_same m n dirs : metadata_text text6 m n dirs = metadata text6 m n dirs.
Proof. unfold metadata_text, metadata, line. rewrite json_all. rewrite !lines_cons. rewrite <- !str_app_assoc. reflexivity. Qed.
Lemma metadata_table_same m n : metadata_table_text text6 m n = metadata_table text6 m n.
Proof. unfold metadata_table_text, metadata_table, line, tab. rewrite !lines_cons. cbn [String.concat]. rewrite <- !str_app_assoc. reflexivity. Qed.
Notation counted := (counted value).
Lemma loop_all dirs base box kT m T dt runs : 0 < dt -> nonzero_box box -> forall ks total,
  (forall k, In k ks -> k <> Vec 0 0 0 /\ mean_of (correlated F value box m runs k 0) <> 0 /\ complete F value box m T dt runs k) ->
  tables_loop dirs base box kT m dt (max_stride T dt) (map (fun k => (k, map (saved F show) (of_vector F value k runs))) ks) total
  = (filter (fun w => writable (fst w)) (map (fun k => (table_name text6 base k, correlation_table text17 sd block err rel dirs k box kT dt (counted m runs k) (max_stride T dt) (correlated F value box m runs k))) ks),
     (total + total_of (counted m runs) ks)%nat, true).
Proof.
  intros D B. induction ks as [|k ks IH]; intros total H; [unfold total_of; cbn [map filter fold_right]; rewrite Nat.add_0_r; reflexivity|].
  destruct (H k (or_introl eq_refl)) as (N & M & C). cbn [map AnaModel.tables_loop]. rewrite plot_vector. unfold saved at 1.
  rewrite (read_files_all F value show read P) by (rewrite wave_vector_zero; assumption).
  set (ms := map (fun r => map (fun s => (time_of F value s, part_across (wave_vector box k) (velocity_of F value s))) (late F value m (snd r))) (of_vector F value k runs)).
  assert (E : map (fun stride => (INR stride * dt, stride_data ms stride)) (seq 0 (max_stride T dt)) = map (fun s => (INR s * dt, correlated F value box m runs k s)) (seq 0 (max_stride T dt))).
  { apply map_ext. intros s. f_equal. rewrite stride_data_lag. unfold correlated. f_equal. subst ms. rewrite map_map. apply map_ext. intros r. rewrite map_map. reflexivity. }
  rewrite E. rewrite (table_all (correlated F value box m runs k) dt (max_stride T dt) M) by (intros s L; apply C, max_stride_spec; assumption).
  assert (Cn : measurement_count ms = counted m runs k).
  { rewrite count_total. subst ms. rewrite total_map. unfold AnaSpec.counted. rewrite <- total_flat. apply total_ext. intros r. apply map_length. }
  rewrite Cn. rewrite IH by (intros k' I; apply H; right; exact I). 
  replace (total + counted m runs k + total_of (counted m runs) ks)%nat with (total + total_of (counted m runs) (k :: ks))%nat by (unfold total_of; cbn [fold_right]; lia).
  f_equal. f_equal.
  rewrite header_lines, <- lines_app. fold (correlation_table text17 sd block err rel dirs k box kT dt (counted m runs k) (max_stride T dt) (correlated F value box m runs k)).
  rewrite write_filter. change (table_path text6 base k) with (table_name text6 base k). cbn [map filter fst]. destruct (writable (table_name text6 base k)); reflexivity.
Qed.
Lemma count_all m runs ks : StronglySorted lex3 ks -> (forall k, In k ks <-> exists r, In r runs /\ vector_of F value (fst r) = k) ->
  total_of (counted m runs) ks = length (flat_map (fun r => late F value m (snd r)) runs).
Proof.
  intros S I. rewrite <- (total_flat (fun r => late F value m (snd r))).
  rewrite <- (total_group vec_dec (fun r => vector_of F value (fst r)) (fun r => length (late F value m (snd r))) ks (sorted_nodup ks S) runs) by (intros r R; apply I; exists r; auto).
  apply total_ext. intros k. unfold AnaSpec.counted. rewrite <- total_flat. reflexivity.
Qed.
End Program.
