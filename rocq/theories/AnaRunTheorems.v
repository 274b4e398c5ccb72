(** The program that writes tables of transverse velocity correlation functions: C111. *)
From Coq Require Import String Ascii List ZArith Bool Reals Lra Lia Sorting.Sorted.
From Verif Require Import PyBase StrBase VecModel VecSpec VecProof VtfModel VtfSpec VtfStepProof VtfPyModel FourModel TvcModel TvcSpec TvcTextProof TvcProof TvcRunProof TvcTheorems.
From Verif Require Import CfgModel CfgSpec CfgProof CfgReadProof CfgTheorems CfgSimProof RsvModel AnaModel AnaSpec AnaProof AnaRunProof AnaTheorems.
Import ListNotations.
Open Scope list_scope.
Open Scope R_scope.

Ltac prop := apply proper_check; [discriminate|vm_compute; reflexivity].

Section Program.
Context (F : Type) (value : F -> R) (show : F -> string) (read : string -> option F).
Context (directory : string -> option (list string)) (regular : string -> option string) (decompressed : string -> string) (writable : string -> bool).
Context (load : string -> outcome (setting F)) (neg : Z -> option Z).
Context (text17 text6 : R -> string) (nan : string) (sd block err rel : list R -> string).
Notation program := (program F value read directory regular decompressed writable load neg text17 text6 nan sd block err rel).
Notation write_plotfiles := (write_plotfiles F value read directory regular decompressed writable load neg text17 text6 nan sd block err rel).
Notation table := (correlation_table text17 sd block err rel).

Lemma measured_open dirs paths p t : measured directory regular dirs paths -> In p paths -> file_text regular decompressed p = Ok t <-> opens regular decompressed p t.
Proof.
  intros M I. rewrite file_opens. split; [tauto|]. intros O. split; [exact O|]. intros _. apply measured_iff in M. subst paths. unfold data_paths in I. apply in_flat_map in I. destruct I as (dir & _ & I).
  rewrite files_prepend in I. apply in_map_iff in I. destruct I as (n & <- & _). rewrite !length_app. cbn [String.length]. lia.
Qed.
Lemma texts_measured dirs paths texts : measured directory regular dirs paths -> Forall2 (opens regular decompressed) paths texts ->
  texts_of regular decompressed (data_paths directory regular dirs) = Ok texts.
Proof.
  intros M O. pose proof M as M'. apply measured_iff in M'. rewrite <- M'. apply texts_all. assert (Sub : forall p, In p paths -> In p paths) by auto. clear M'. revert O Sub. generalize paths at 1 2 4.
  intros l O. induction O as [|p t l ts Op _ IH]; intros Sub; constructor; [apply (measured_open dirs paths p _ M); [apply Sub; left; reflexivity|exact Op]|]. apply IH. intros q J. apply Sub. right. exact J.
Qed.
Lemma settings_agreed dirs x y z kT dt : (0 <= x)%Z -> (0 <= y)%Z -> (0 <= z)%Z ->
  agreed_integer load dirs (side "x") x -> agreed_integer load dirs (side "y") y -> agreed_integer load dirs (side "z") z ->
  agreed_number value load dirs temperature kT -> agreed_number value load dirs time_step dt ->
  settings_of F value load neg dirs = Done (x, y, z, kT, dt).
Proof.
  intros X Y Z' Ax Ay Az At Ad.
  assert (G : forall p v, (0 <= v)%Z -> agreed_integer load dirs p v -> never_negative load dirs p).
  { intros p v V (_ & A) dir w I (c & L & R). destruct (A dir I) as (c' & L' & R'). rewrite L in L'. injection L' as <-. apply walk_reaches in R. apply walk_reaches in R'. rewrite R in R'. injection R' as ->. exact V. }
  unfold settings_of.
  change "mpc.simulationBoxSize.x"%string with (dotted (side "x")). rewrite (proj2 (consistent_integer F load neg dirs (side "x") ltac:(prop) (G _ _ X Ax) x) Ax).
  change "mpc.simulationBoxSize.y"%string with (dotted (side "y")). rewrite (proj2 (consistent_integer F load neg dirs (side "y") ltac:(prop) (G _ _ Y Ay) y) Ay).
  change "mpc.simulationBoxSize.z"%string with (dotted (side "z")). rewrite (proj2 (consistent_integer F load neg dirs (side "z") ltac:(prop) (G _ _ Z' Az) z) Az).
  change "bulkThermostat.targetkT"%string with (dotted temperature). destruct (proj2 (consistent_number F value load neg dirs temperature ltac:(prop) kT) At) as (d & -> & <-).
  change "mpc.timestep"%string with (dotted time_step). destruct (proj2 (consistent_number F value load neg dirs time_step ltac:(prop) dt) Ad) as (e & -> & <-). reflexivity.
Qed.
Lemma run_with o base dirs : help o = false -> saveFilename o = Some base -> rundirs o = dirs -> dirs <> [] ->
  program o = let (w, ok) := write_plotfiles (otherwise (option_map value (minimumTime o)) 0) (otherwise (option_map value (maxCorrelationTime o)) 250) dirs base
                               (match metadataFilename o with Some s => s | None => ""%string end) (match metadataTableFilename o with Some s => s | None => ""%string end) in
              (w, if ok then 0%Z else 1%Z).
Proof.
  intros H S R N. unfold AnaModel.program. rewrite H, S, R. destruct dirs as [|d dirs]; [congruence|]. cbv zeta.
  replace (match minimumTime o with Some t => value t | None => 0 end) with (otherwise (option_map value (minimumTime o)) 0) by (destruct (minimumTime o); reflexivity).
  replace (match maxCorrelationTime o with Some t => value t | None => 250 end) with (otherwise (option_map value (maxCorrelationTime o)) 250) by (destruct (maxCorrelationTime o); reflexivity).
  reflexivity.
Qed.

(** C111: what is written. *)
Theorem correlation_program : forall o base dirs paths runs x y z kT dt,
  prints show read -> help o = false -> saveFilename o = Some base -> rundirs o = dirs ->
  (0 < x)%Z -> (0 < y)%Z -> (0 < z)%Z -> 0 < dt ->
  agreed_integer load dirs (side "x") x -> agreed_integer load dirs (side "y") y -> agreed_integer load dirs (side "z") z ->
  agreed_number value load dirs temperature kT -> agreed_number value load dirs time_step dt ->
  measured directory regular dirs paths -> Forall2 (fun p r => opens regular decompressed p (saveFourierTransformedVelocities F show (fst r) (snd r))) paths runs ->
  let box := (x, y, z) in
  let minimum := otherwise (option_map value (minimumTime o)) 0 in
  let maximum := otherwise (option_map value (maxCorrelationTime o)) 250 in
  (forall r, In r runs -> let k := vector_of F value (fst r) in
     k <> Vec 0 0 0 /\ mean_of (correlated F value box minimum runs k 0) <> 0 /\ complete F value box minimum maximum dt runs k) ->
  exists ks n, StronglySorted lex3 ks /\ (forall k, In k ks <-> exists r, In r runs /\ vector_of F value (fst r) = k) /\ (forall s, (s < n)%nat <-> INR s * dt < maximum)
  /\ let total := length (flat_map (fun r => late F value minimum (snd r)) runs) in
     program o = (filter (fun w => writable (fst w))
       (map (fun k => (table_name text6 base k, table dirs k box kT dt (counted value minimum runs k) n (correlated F value box minimum runs k))) ks
        ++ given (metadataFilename o) (metadata text6 minimum total dirs) ++ given (metadataTableFilename o) (metadata_table text6 minimum total)), 0%Z).
Proof.
  intros o base dirs paths runs x y z kT dt P H S R X Y Z' D Ax Ay Az At Ad M O box minimum maximum C.
  destruct (grouped F value show read P runs) as (ks & Sk & I & E). exists ks, (max_stride maximum dt). split; [exact Sk|]. split; [exact I|]. split; [intros s; apply max_stride_spec, D|]. intros total.
  rewrite (run_with o base dirs H S R) by (apply At). fold minimum maximum. unfold AnaModel.write_plotfiles. rewrite (settings_agreed dirs x y z kT dt) by (lia || assumption).
  assert (T : texts_of regular decompressed (data_paths directory regular dirs) = Ok (map (saved F show) runs)).
  { apply (texts_measured dirs paths (map (saved F show) runs) M). clear - O. induction O; constructor; assumption. }
  rewrite T. cbn [bind]. rewrite E. change (x, y, z) with box. rewrite (loop_all F value show read P writable text17 text6 nan sd block err rel dirs base box kT minimum maximum dt runs D).
  - cbn [Nat.add]. rewrite (count_all F value minimum runs ks Sk I). fold total. rewrite metadata_same, metadata_table_same, !given_filter, !filter_app. reflexivity.
  - cbn [nonzero_box box]. lia.
  - intros k K. apply I in K. destruct K as (r & Rr & <-). apply (C r Rr).
Qed.

(** C111: when nothing is written. *)
Theorem correlation_program_nothing : forall o,
  (help o = true -> program o = ([], 0%Z))
  /\ (help o = false -> saveFilename o = None \/ rundirs o = [] -> program o = ([], 1%Z))
  /\ (help o = false -> (forall p, In p [side "x"; side "y"; side "z"] -> never_negative load (rundirs o) p) ->
      (exists p, In p [side "x"; side "y"; side "z"] /\ forall v, ~ agreed_integer load (rundirs o) p v) \/ (exists p, In p [temperature; time_step] /\ forall v, ~ agreed_number value load (rundirs o) p v) ->
      program o = ([], 1%Z))
  /\ (forall paths path text, help o = false -> measured directory regular (rundirs o) paths -> In path paths -> opens regular decompressed path text -> String.prefix "#k_n:" text = false ->
      program o = ([], 1%Z)).
Proof.
  intros o. unfold AnaModel.program. split; [intros ->; reflexivity|]. split; [intros -> [-> | ->]; [reflexivity|destruct (saveFilename o); reflexivity]|]. split.
  - intros -> N H. destruct (saveFilename o) as [base|]; [|reflexivity]. destruct (rundirs o) as [|d ds] eqn:R; [reflexivity|]. rewrite <- R in *. clear R. unfold AnaModel.write_plotfiles.
    assert (Gi : forall p, In p [side "x"; side "y"; side "z"] -> proper_path p) by (intros p [<-|[<-|[<-|[]]]]; prop). assert (Gn : forall p, In p [temperature; time_step] -> proper_path p) by (intros p [<-|[<-|[]]]; prop).
    assert (E : exists f, settings_of F value load neg (rundirs o) = Fails f); [|destruct E as (f & ->); reflexivity].
    unfold settings_of.
    change "mpc.simulationBoxSize.x"%string with (dotted (side "x")). change "mpc.simulationBoxSize.y"%string with (dotted (side "y")). change "mpc.simulationBoxSize.z"%string with (dotted (side "z")).
    change "bulkThermostat.targetkT"%string with (dotted temperature). change "mpc.timestep"%string with (dotted time_step).
    destruct (getConsistentConfigValue F load (unsigned_setting F neg (dotted (side "x"))) integers_differ (rundirs o)) as [x|f] eqn:Ex; [|exists f; reflexivity].
    destruct (getConsistentConfigValue F load (unsigned_setting F neg (dotted (side "y"))) integers_differ (rundirs o)) as [y|f] eqn:Ey; [|exists f; reflexivity].
    destruct (getConsistentConfigValue F load (unsigned_setting F neg (dotted (side "z"))) integers_differ (rundirs o)) as [z|f] eqn:Ez; [|exists f; reflexivity].
    destruct (getConsistentConfigValue F load (double_setting F neg (dotted temperature)) (doubles_differ F value) (rundirs o)) as [kT|f] eqn:Et; [|exists f; reflexivity].
    destruct (getConsistentConfigValue F load (double_setting F neg (dotted time_step)) (doubles_differ F value) (rundirs o)) as [dt|f] eqn:Ed; [|exists f; reflexivity].
    exfalso. destruct H as [(p & I & A)|(p & I & A)].
    + pose proof (Gi p I) as Pp. pose proof (N p I) as Np. destruct I as [<-|[<-|[<-|[]]]]; [apply (A x)|apply (A y)|apply (A z)]; apply (consistent_integer F load neg _ _ Pp Np); assumption.
    + pose proof (Gn p I) as Pp. destruct I as [<-|[<-|[]]]; [apply (A (value kT))|apply (A (value dt))]; apply (consistent_number F value load neg _ _ Pp); eexists; split; try eassumption; reflexivity.
  - intros paths path text -> M I O K. destruct (saveFilename o) as [base|]; [|reflexivity]. destruct (rundirs o) as [|d ds] eqn:R; [reflexivity|]. rewrite <- R in *. clear R. unfold AnaModel.write_plotfiles.
    destruct (settings_of F value load neg (rundirs o)) as [[[[[x y] z] kT] dt]|f]; [|reflexivity].
    pose proof M as M'. apply measured_iff in M'. rewrite <- M'. destruct (texts_of regular decompressed paths) as [texts|e] eqn:T; [|reflexivity]. cbn [bind].
    assert (J : In text texts).
    { apply texts_all in T. clear M'. assert (W : file_text regular decompressed path = Ok text) by (apply (measured_open (rundirs o) paths path text M I), O). clear M. revert I. induction T as [|p t ps ts Pt _ IH]; intros [].
      - subst p. rewrite W in Pt. injection Pt as <-. left. reflexivity.
      - right. apply IH. assumption. }
    assert (W : exists e, wave_vector_of F value read text = Err e).
    { exists IOException. unfold wave_vector_of. destruct (String.eqb_spec (substring 0 5 (hd ""%string (get_lines text))) "#k_n:") as [Q|]; [|reflexivity]. exfalso.
      assert (Pre : String.prefix (hd ""%string (get_lines text)) text = true).
      { unfold get_lines. assert (L : forall s, exists l r, lines_of s = l :: r /\ String.prefix l s = true).
        { induction s as [|a s (l & r & El & Pl)]; [exists ""%string, []; split; reflexivity|]. unfold lines_of in *. cbn [StrBase.split]. destruct (Ascii.eqb a newline) eqn:Qa.
          - exists ""%string. eexists. split; [reflexivity|reflexivity].
          - rewrite El. exists (String a l), r. split; [reflexivity|]. cbn [String.prefix]. destruct (ascii_dec a a); [exact Pl|congruence]. }
        destruct (L text) as (l & r & El & Pl). rewrite El. destruct (String.eqb (last (l :: r) "") ""); [|exact Pl]. destruct r as [|b r]; [destruct text; reflexivity|]. exact Pl. }
      apply prefix_app in Pre. destruct Pre as (r & Er). set (h := hd ""%string (get_lines text)) in *.
      assert (Ph : String.prefix "#k_n:" h = true).
      { apply prefix_app. exists (substring 5 (String.length h - 5) h). rewrite <- Q. apply sub_split.
        destruct (le_lt_dec 5 (String.length h)) as [L|L]; [exact L|]. exfalso.
        assert (LL : (String.length (substring 0 5 h) <= String.length h)%nat).
        { clear. generalize 5%nat. induction h as [|a h IH]; intros [|n]; cbn [substring String.length]; try lia. specialize (IH n). lia. }
        rewrite Q in LL. cbn [String.length] in LL. lia. }
      apply prefix_app in Ph. destruct Ph as (h' & Eh). rewrite Eh in Er. rewrite <- str_app_assoc in Er.
      assert (String.prefix "#k_n:" text = true) by (apply prefix_app; exists (h' ++ r)%string; exact Er). congruence. }
    destruct W as (e & W). assert (Q : exists e, getWaveVectorsAndPaths F value read texts = Err e).
    { unfold getWaveVectorsAndPaths. generalize (@nil (vec * list string)). clear T. induction texts as [|t texts IH]; intros m; [destruct J|]. cbn [wave_vectors_loop].
      destruct (wave_vector_of F value read t) as [k|e'] eqn:Wt; cbn [bind]; [|exists e'; reflexivity]. destruct J as [->|J]; [congruence|]. apply IH, J. }
    destruct Q as (e' & ->). reflexivity.
Qed.

(** C111: what can have been written if there has been an error. *)
Theorem correlation_program_errors : forall o,
  (snd (program o) = 0%Z \/ snd (program o) = 1%Z)
  /\ (snd (program o) = 1%Z -> forall w, In w (fst (program o)) -> writable (fst w) = true /\ exists base k, saveFilename o = Some base /\ fst w = table_name text6 base k).
Proof.
  intros o. unfold AnaModel.program. destruct (help o); [split; [left; reflexivity|discriminate]|]. destruct (saveFilename o) as [base|]; [|split; [right; reflexivity|intros _ w []]].
  destruct (rundirs o) as [|d ds]; [split; [right; reflexivity|intros _ w []]|]. unfold AnaModel.write_plotfiles.
  destruct (settings_of F value load neg (d :: ds)) as [[[[[x y] z] kT] dt]|f]; [|split; [right; reflexivity|intros _ w []]].
  destruct (bind _ _) as [l|e]; [|split; [right; reflexivity|intros _ w []]]. cbv zeta.
  match goal with |- context [tables_loop F value read writable text17 text6 nan sd block err rel ?a ?b ?c ?d ?e ?f ?g ?h ?i] => pose proof (loop_names F value read writable text17 text6 nan sd block err rel a b c d e f g h i) as L;
    destruct (tables_loop F value read writable text17 text6 nan sd block err rel a b c d e f g h i) as [[tables total] []] end.
  - split; [left; reflexivity|discriminate].
  - split; [right; reflexivity|]. intros _ w I. destruct (L w I) as (A & k & _ & B). split; [exact A|]. exists base, k. auto.
Qed.
(** C111: the exit status, by the data. *)
Theorem correlation_program_status : forall o base dirs paths texts x y z kT dt,
  help o = false -> saveFilename o = Some base -> rundirs o = dirs -> (0 <= x)%Z -> (0 <= y)%Z -> (0 <= z)%Z ->
  agreed_integer load dirs (side "x") x -> agreed_integer load dirs (side "y") y -> agreed_integer load dirs (side "z") z ->
  agreed_number value load dirs temperature kT -> agreed_number value load dirs time_step dt ->
  measured directory regular dirs paths -> Forall2 (opens regular decompressed) paths texts ->
  snd (program o) = 0%Z <-> snd (writePlotfiles F value read (x, y, z) (otherwise (option_map value (minimumTime o)) 0) (otherwise (option_map value (maxCorrelationTime o)) 250) dt texts) = None.
Proof.
  intros o base dirs paths texts x y z kT dt H S R X Y Z' Ax Ay Az At Ad M O.
  rewrite (run_with o base dirs H S R) by (apply At). unfold AnaModel.write_plotfiles. rewrite (settings_agreed dirs x y z kT dt) by assumption.
  assert (T : texts_of regular decompressed (data_paths directory regular dirs) = Ok texts).
  { apply (texts_measured dirs paths texts M O). }
  rewrite T. cbn [bind]. unfold writePlotfiles. destruct (getWaveVectorsAndPaths F value read texts) as [l|e]; [|split; discriminate].
  match goal with |- context [tables_loop F value read writable text17 text6 nan sd block err rel ?a ?b ?c ?d ?e ?f ?g ?h ?i] => pose proof (loop_status F value read writable text17 text6 nan sd block err rel a b c d e f g h i) as L;
    destruct (tables_loop F value read writable text17 text6 nan sd block err rel a b c d e f g h i) as [[tables total] ok] end.
  cbn [snd] in L. subst ok. destruct (snd (plot_loop _ _ _ _ _ _ _ _)); cbn [snd]; split; congruence.
Qed.
(** C111: a table whose data do not suffice ends in the middle of a row. *)
Theorem correlation_table_unfinished : forall (data : nat -> list R) dt n s0, (s0 < n)%nat -> (length (data s0) < 2)%nat -> (forall s, (s < s0)%nat -> (2 <= length (data s))%nat) ->
  mean_of (data 0%nat) <> 0 ->
  let t := INR s0 * dt in
  table_text text17 nan sd block err rel 0 (map (fun s => (INR s * dt, data s)) (seq 0 n))
  = ((lines (map (fun s => correlation_row text17 sd block err rel (INR s * dt) (mean_of (data 0%nat)) (data s)) (seq 0 s0))
      ++ match data s0 with
         | [a] => text17 t ++ tab ++ text17 (a / mean_of (data 0%nat)) ++ tab ++ text17 a ++ tab ++ "1" ++ tab
         | _ => if Nat.eqb s0 0 then "" else text17 t ++ tab
         end)%string, false).
Proof.
  intros data dt n s0 L S H M t.
  replace (seq 0 n) with (seq 0 s0 ++ s0 :: seq (Datatypes.S s0) (n - Datatypes.S s0)).
  2:{ change (s0 :: seq (Datatypes.S s0) (n - Datatypes.S s0)) with (seq (0 + s0) (Datatypes.S (n - Datatypes.S s0))). rewrite <- seq_app. f_equal. lia. }
  rewrite map_app. cbn [map]. destruct s0 as [|s0].
  - cbn [seq map app]. change (lines []) with ""%string. cbn [append Nat.eqb table_text]. destruct (data 0%nat) as [|a [|b l]] eqn:E0; [|cbn [AnaModel.table_text]|cbn in S; lia].
    + cbn [AnaModel.table_text]. destruct (Req_EM_T 0 0); [reflexivity|lra].
    + destruct (Req_EM_T 0 0); [|lra]. change (sample_mean [a]) with (mean_of [a]). destruct (Req_EM_T (mean_of [a]) 0); [contradiction|].
      assert (Ea : mean_of [a] = a) by (unfold mean_of; cbn [fold_right length INR]; field). rewrite Ea. subst t. f_equal. unfold entry, tab. rewrite <- !str_app_assoc. reflexivity.
  - rewrite table_start by (try assumption; lia). cbn [AnaModel.table_text Nat.eqb]. destruct (data (Datatypes.S s0)) as [|a [|b l]] eqn:E0; [| |cbn in S; lia].
    + destruct (Req_EM_T (mean_of (data 0%nat)) 0); [contradiction|]. reflexivity.
    + destruct (Req_EM_T (mean_of (data 0%nat)) 0); [contradiction|]. change (sample_mean [a]) with (mean_of [a]).
      assert (Ea : mean_of [a] = a) by (unfold mean_of; cbn [fold_right length INR]; field). rewrite Ea. subst t. destruct (Req_EM_T (mean_of (data 0%nat)) 0); [contradiction|]. f_equal. f_equal. unfold entry, tab. rewrite <- !str_app_assoc. reflexivity.
Qed.
End Program.
Print Assumptions correlation_program.
Print Assumptions correlation_program_nothing.
Print Assumptions correlation_program_errors.
Print Assumptions correlation_program_status.
Print Assumptions correlation_table_unfinished.

(** * Examples *)
Lemma sorted_unique : forall a b, StronglySorted lex3 a -> StronglySorted lex3 b -> (forall k, In k a <-> In k b) -> a = b.
Proof.
  induction a as [|x a IH]; intros b A B H.
  - destruct b as [|y b]; [reflexivity|]. destruct (proj2 (H y) (or_introl eq_refl)).
  - destruct b as [|y b]; [destruct (proj1 (H x) (or_introl eq_refl))|]. inversion A as [|? ? A' FA]. inversion B as [|? ? B' FB]. subst. rewrite Forall_forall in FA, FB.
    assert (x = y) as ->.
    { destruct (proj1 (H x) (or_introl eq_refl)) as [E|I]; [congruence|]. destruct (proj2 (H y) (or_introl eq_refl)) as [E|J]; [exact E|]. exfalso. exact (lex3_irrefl x (lex3_trans _ _ _ (FA y J) (FB x I))). }
    f_equal. apply IH; [exact A'|exact B'|]. intros k. split; intros I.
    + destruct (proj1 (H k) (or_intror I)) as [<-|J]; [exfalso; exact (lex3_irrefl y (FA y I))|exact J].
    + destruct (proj2 (H k) (or_intror I)) as [<-|J]; [exfalso; exact (lex3_irrefl y (FB y I))|exact J].
Qed.
Definition ex_settings (n : Z) : setting Z :=
  Group [("mpc", Group [("simulationBoxSize", Group [("x", Scalar (VInt 10)); ("y", Scalar (VInt 20)); ("z", Scalar (VInt 10))]); ("timestep", Scalar (VFloat n))]); ("bulkThermostat", Group [("targetkT", Scalar (VFloat n))])]%string.
Definition ex_loaded (n : Z) (p : string) : outcome (setting Z) := if String.eqb p "run/config.txt" then Done (ex_settings n) else Fails GeneralException.
Definition ex_names (p : string) : option (list string) := if String.eqb p "run/fourierTransformedVelocities" then Some ["0.data"; "1.data"]%string else None.
Definition ex_contents (a b : Z * Z * Z * list (Z * (Z * Z * Z * Z * Z * Z))) (p : string) : option string :=
  if String.eqb p "run/fourierTransformedVelocities/0.data" then Some (saveFourierTransformedVelocities Z str_of_Z (fst a) (snd a))
  else if String.eqb p "run/fourierTransformedVelocities/1.data" then Some (saveFourierTransformedVelocities Z str_of_Z (fst b) (snd b)) else None.
Definition ex_options (maximum : Z) : options Z := Options false (Some "out"%string) (Some "meta"%string) None None (Some maximum) ["run"%string].
Definition ex_paths : list string := ["run/fourierTransformedVelocities/0.data"; "run/fourierTransformedVelocities/1.data"]%string.
Lemma ex_settings_agreed value n : agreed_integer (ex_loaded n) ["run"]%string (side "x") 10 /\ agreed_integer (ex_loaded n) ["run"]%string (side "y") 20 /\ agreed_integer (ex_loaded n) ["run"]%string (side "z") 10
  /\ agreed_number value (ex_loaded n) ["run"]%string temperature (value n) /\ agreed_number value (ex_loaded n) ["run"]%string time_step (value n).
Proof.
  assert (C : forall p v, walk Z (ex_settings n) p = Some (Scalar v) -> forall dir, In dir ["run"]%string -> configured (ex_loaded n) dir p v).
  { intros p v W dir [<-|[]]. exists (ex_settings n). split; [reflexivity|]. apply walk_reaches, W. }
  repeat split; try discriminate; try (apply C; reflexivity); intros dir I; exists n; (split; [|reflexivity]); revert dir I; apply C; reflexivity.
Qed.
Lemma ex_measured a b : measured ex_names (ex_contents a b) ["run"]%string ex_paths.
Proof. apply measured_iff. reflexivity. Qed.
Lemma ex_opens a b : Forall2 (fun p r => opens (ex_contents a b) (fun c => c) p (saveFourierTransformedVelocities Z str_of_Z (fst r) (snd r))) ex_paths [a; b].
Proof.
  assert (N : forall p, In p ex_paths -> ~ ends_with ".bz2" p).
  { intros p I E. apply suffix_iff in E; [|apply suffix_long, E]. destruct I as [<-|[<-|[]]]; vm_compute in E; discriminate. }
  repeat constructor; try reflexivity; apply N; [left|right; left]; reflexivity.
Qed.
Section Ex.
Context (writable : string -> bool) (text17 text6 : R -> string) (nan : string) (sd block err rel : list R -> string).
Notation run value n a b := (program Z value Z_of_str ex_names (ex_contents a b) (fun c => c) writable (ex_loaded n) (fun z => Some z) text17 text6 nan sd block err rel).
Notation table := (correlation_table text17 sd block err rel ["run"%string]).
Lemma ex_late_count : counted IZR 0 ex_runs (Vec 1 1 0) = 4%nat /\ length (flat_map (fun r => late Z IZR 0 (snd r)) ex_runs) = 4%nat.
Proof.
  split; [|unfold ex_runs; cbn [flat_map snd]; rewrite ex_late; reflexivity]. unfold counted, of_vector, ex_runs. cbn [filter fst vector_of]. destruct (vec_dec (Vec 1 1 0) (Vec 1 1 0)); [|congruence]. cbn [flat_map snd]. rewrite ex_late. reflexivity.
Qed.
(** Two runs, with four measurements. *)
Lemma correlation_program_ex :
  run IZR 1%Z ((1, 1, 0)%Z, ex_run) ((1, 1, 0)%Z, ex_run) (ex_options 2)
  = (filter (fun w => writable (fst w)) [(table_name text6 "out" (Vec 1 1 0), table (Vec 1 1 0) (10, 20, 10)%Z 1 1 4 2 (correlated Z IZR (10, 20, 10)%Z 0 ex_runs (Vec 1 1 0)));
                                         ("meta"%string, metadata text6 0 4 ["run"%string])], 0%Z).
Proof.
  destruct ex_means as (M0 & M1 & L0 & L1). destruct (ex_settings_agreed IZR 1) as (Ax & Ay & Az & At & Ad). destruct ex_late_count as (C1 & C2).
  destruct (correlation_program Z IZR str_of_Z Z_of_str ex_names (ex_contents ((1, 1, 0)%Z, ex_run) ((1, 1, 0)%Z, ex_run)) (fun c => c) writable (ex_loaded 1) (fun z => Some z) text17 text6 nan sd block err rel
    (ex_options 2) "out"%string ["run"%string] ex_paths ex_runs 10 20 10 1 1 integers_print eq_refl eq_refl eq_refl ltac:(lia) ltac:(lia) ltac:(lia) ltac:(lra) Ax Ay Az At Ad (ex_measured _ _) (ex_opens _ _)) as (ks & n & S & I & N & ->).
  - cbn [ex_options minimumTime maxCorrelationTime option_map otherwise]. intros r R. assert (vector_of Z IZR (fst r) = Vec 1 1 0) as -> by (destruct R as [<-|[<-|[]]]; reflexivity). cbv zeta. split; [intros Q; injection Q; intros; lra|]. split; [rewrite M0; lra|].
    intros s Q. destruct s as [|[|s]]; [lia|lia|]. rewrite !S_INR in Q. pose proof (pos_INR s). lra.
  - cbn [ex_options minimumTime maxCorrelationTime metadataFilename metadataTableFilename option_map otherwise given] in *.
    assert (n = 2%nat) as ->.
    { pose proof (N 1%nat) as A. pose proof (N 2%nat) as A'. cbn [INR] in A, A'. assert (1 < n)%nat by (apply A; lra). assert (~ (2 < n)%nat) by (intros Q; apply A' in Q; lra). lia. }
    assert (ks = [Vec 1 1 0]) as ->.
    { apply sorted_unique; [exact S|repeat constructor|]. intros k. rewrite I. cbn [In]. split; [intros (r & [<-|[<-|[]]] & <-); left; reflexivity|]. intros [<-|[]]. exists ((1, 1, 0)%Z, ex_run). split; [left; reflexivity|reflexivity]. }
    cbn [map app]. rewrite C1, C2. reflexivity.
Qed.
(** Numbers with seven digits after the decimal point; wave vectors that differ in the last one. *)
Definition with_seven (z : Z) : R := IZR z / 10000000.
Definition ex_near (n : Z) : Z * Z * Z * list (Z * (Z * Z * Z * Z * Z * Z)) := ((n, 0, 0)%Z, [(0, (0, 0, 1, 0, 0, 0))]%Z).
Lemma ex_near_mean n a b : n <> 0%Z -> n = a \/ n = b -> mean_of (correlated Z with_seven (10, 20, 10)%Z 0 [ex_near a; ex_near b] (vector_of Z with_seven (n, 0, 0)%Z) 0) <> 0.
Proof.
  intros NZ AB.
  assert (NV : with_seven n <> 0). { unfold with_seven. intros E. apply NZ, eq_IZR. lra. }
  assert (E : exists j, (j = 1 \/ j = 2)%nat /\ correlated Z with_seven (10, 20, 10)%Z 0 [ex_near a; ex_near b] (vector_of Z with_seven (n, 0, 0)%Z) 0 = repeat (1 / 10000000 / 10000000) j).
  { assert (X : forall m, map (fun x => part_across (wave_vector (10, 20, 10)%Z (vector_of Z with_seven (n, 0, 0)%Z)) (velocity_of Z with_seven x)) (late Z with_seven 0 (snd (ex_near m))) = [complex3 (Vec 0 (1 / 10000000) 0) (Vec 0 0 0)]).
    { assert (Z7 : with_seven 0 = 0) by (unfold with_seven; lra). intros m.
      assert (LL : late Z with_seven 0 (snd (ex_near m)) = [(0, (0, 0, 1, 0, 0, 0))]%Z).
      { unfold ex_near, late, time_of. cbn [snd filter fst]. rewrite Z7. destruct (Rlt_dec 0 0); [lra|reflexivity]. }
      rewrite LL. cbn [map]. f_equal. unfold part_across, velocity_of, vector_of, wave_vector, complex3, minus3, times3, dot3, cre, cim. cbn [fst snd vx vy vz re im cvx cvy cvz]. rewrite Z7.
      change (with_seven 1) with (1 / 10000000). apply components_eq; unfold Rdiv; ring. }
    assert (Y : forall l, (forall m, In m l -> exists c, m = ex_near c) -> lag_data 0 (map (fun r => map (fun x => part_across (wave_vector (10, 20, 10)%Z (vector_of Z with_seven (n, 0, 0)%Z)) (velocity_of Z with_seven x)) (late Z with_seven 0 (snd r))) l) = repeat (1 / 10000000 / 10000000) (length l)).
    { induction l as [|m l IH]; intros H; [reflexivity|]. destruct (H m (or_introl eq_refl)) as (c & ->). cbn [map]. rewrite X. unfold lag_data in *. cbn [flat_map]. rewrite IH by (intros m' J; apply H; right; exact J).
      cbn [lag_pairs skipn combine map app length repeat fst snd]. f_equal. unfold product, dot3, cre, cim, complex3. cbn [vx vy vz re im cvx cvy cvz]. lra. }
    unfold correlated. exists (length (of_vector Z with_seven (vector_of Z with_seven (n, 0, 0)%Z) [ex_near a; ex_near b])). split.
    - unfold of_vector. cbn [filter]. change (fst (ex_near a)) with (a, 0, 0)%Z. change (fst (ex_near b)) with (b, 0, 0)%Z.
      destruct (vec_dec (vector_of Z with_seven (a, 0, 0)%Z) (vector_of Z with_seven (n, 0, 0)%Z)) as [Ea|Ea], (vec_dec (vector_of Z with_seven (b, 0, 0)%Z) (vector_of Z with_seven (n, 0, 0)%Z)) as [Eb|Eb]; cbn [length]; auto.
      exfalso. destruct AB as [<-|<-]; congruence.
    - apply Y. intros m J. unfold of_vector in J. apply filter_In in J. destruct J as ([<-|[<-|[]]] & _); eexists; reflexivity. }
  destruct E as (j & [-> | ->] & ->); unfold mean_of; cbn [repeat fold_right length INR]; lra.
Qed.
(** C111: wave vectors that agree in six digits have the same file, which has the table for the larger one in the end. *)
Theorem correlation_tables_kept_refuted : text6 1 = "1"%string -> text6 (10000001 / 10000000) = "1"%string -> (forall p, writable p = true) ->
  exists k1 k2 t1 t2 p, k1 <> k2
  /\ program Z with_seven Z_of_str ex_names (ex_contents (ex_near 10000000) (ex_near 10000001)) (fun c => c) writable (ex_loaded 10000000) (fun z => Some z) text17 text6 nan sd block err rel (ex_options 0)
     = ([(p, t1); (p, t2); ("meta"%string, metadata text6 0 2 ["run"%string])], 0%Z)
  /\ (exists data, t1 = table k1 (10, 20, 10)%Z 1 1 1 0 data) /\ (exists data, t2 = table k2 (10, 20, 10)%Z 1 1 1 0 data)
  /\ (p <> "meta"%string -> finally p [(p, t1); (p, t2); ("meta"%string, metadata text6 0 2 ["run"%string])] None = Some t2).
Proof.
  intros T1 T2 W. set (a := 10000000%Z). set (b := 10000001%Z).
  assert (VA : vector_of Z with_seven (a, 0, 0)%Z = Vec 1 0 0) by (unfold vector_of, with_seven, a; f_equal; lra).
  assert (VB : vector_of Z with_seven (b, 0, 0)%Z = Vec (10000001 / 10000000) 0 0) by (unfold vector_of, with_seven, b; f_equal; lra).
  assert (V1 : with_seven a = 1) by (unfold with_seven, a; lra). assert (V0 : with_seven 0 = 0) by (unfold with_seven; lra).
  destruct (ex_settings_agreed with_seven a) as (Ax & Ay & Az & At & Ad). rewrite V1 in At, Ad.
  destruct (correlation_program Z with_seven str_of_Z Z_of_str ex_names (ex_contents (ex_near a) (ex_near b)) (fun c => c) writable (ex_loaded a) (fun z => Some z) text17 text6 nan sd block err rel
    (ex_options 0) "out"%string ["run"%string] ex_paths [ex_near a; ex_near b] 10 20 10 1 1 integers_print eq_refl eq_refl eq_refl ltac:(lia) ltac:(lia) ltac:(lia) ltac:(lra) Ax Ay Az At Ad (ex_measured _ _) (ex_opens _ _)) as (ks & n & S & I & N & E).
  - cbn [ex_options minimumTime maxCorrelationTime option_map otherwise]. rewrite V0. intros r R. cbv zeta.
    assert (Q : exists m, (m = a \/ m = b) /\ fst r = (m, 0, 0)%Z) by (destruct R as [<-|[<-|[]]]; [exists a|exists b]; auto). destruct Q as (m & Q & ->).
    assert (m <> 0%Z) by (destruct Q as [-> | ->]; discriminate). split; [|split; [apply ex_near_mean; assumption|]].
    + intros Q'. destruct Q as [-> | ->]; [rewrite VA in Q'|rewrite VB in Q']; injection Q'; intros; lra.
    + intros s Q'. exfalso. pose proof (pos_INR s). lra.
  - cbn [ex_options minimumTime maxCorrelationTime metadataFilename metadataTableFilename option_map otherwise given] in *. rewrite V0 in N.
    assert (n = 0%nat) as -> by (destruct n as [|n]; [reflexivity|]; pose proof (proj1 (N 0%nat) ltac:(lia)) as Q; cbn [INR] in Q; lra).
    assert (ks = [Vec 1 0 0; Vec (10000001 / 10000000) 0 0]) as ->.
    { apply sorted_unique; [exact S| |].
      - constructor; [repeat constructor|]. constructor; [|constructor]. left. cbn [vx]. lra.
      - intros k. rewrite I. cbn [In]. split.
        + intros (r & [<-|[<-|[]]] & <-); cbn [ex_near fst]; rewrite ?VA, ?VB; auto.
        + intros [<-|[<-|[]]]; [exists (ex_near a)|exists (ex_near b)]; cbn [ex_near fst In]; auto. }
    assert (LL : forall m, late Z with_seven 0 (snd (ex_near m)) = snd (ex_near m)).
    { intros m. unfold ex_near, late, time_of. cbn [snd filter fst]. rewrite V0. destruct (Rlt_dec 0 0); [lra|reflexivity]. }
    assert (CT : length (flat_map (fun r => late Z with_seven 0 (snd r)) [ex_near a; ex_near b]) = 2%nat) by (cbn [flat_map]; rewrite !LL; reflexivity).
    assert (LC : forall k, k = Vec 1 0 0 \/ k = Vec (10000001 / 10000000) 0 0 -> counted with_seven 0 [ex_near a; ex_near b] k = 1%nat).
    { intros k K. unfold counted, of_vector. cbn [filter]. change (fst (ex_near a)) with (a, 0, 0)%Z. change (fst (ex_near b)) with (b, 0, 0)%Z. rewrite VA, VB.
      destruct K as [-> | ->]; repeat (match goal with |- context [vec_dec ?u ?v] => destruct (vec_dec u v) end); try congruence;
        try (exfalso; match goal with Q : Vec _ _ _ = Vec _ _ _ |- _ => injection Q; intros; lra end); cbn [flat_map]; rewrite LL; reflexivity. }
    exists (Vec 1 0 0), (Vec (10000001 / 10000000) 0 0), (table (Vec 1 0 0) (10, 20, 10)%Z 1 1 1 0 (correlated Z with_seven (10, 20, 10)%Z 0 [ex_near a; ex_near b] (Vec 1 0 0))),
      (table (Vec (10000001 / 10000000) 0 0) (10, 20, 10)%Z 1 1 1 0 (correlated Z with_seven (10, 20, 10)%Z 0 [ex_near a; ex_near b] (Vec (10000001 / 10000000) 0 0))), (table_name text6 "out" (Vec 1 0 0)).
    split; [intros Q; injection Q; intros; lra|]. split; [|split; [eexists; reflexivity|split; [eexists; reflexivity|]]].
    + rewrite E, CT. cbn [map app]. rewrite !LC by auto. unfold table_name. cbn [vx vy vz]. rewrite T1, T2. change (String.eqb "meta" "") with false. cbn iota. cbn [app filter fst]. rewrite !W. reflexivity.
    + intros NM. cbn [finally]. rewrite String.eqb_refl. destruct (String.eqb_spec "meta" (table_name text6 "out" (Vec 1 0 0))); [congruence|reflexivity].
Qed.
End Ex.
(** C111: if no file can be written, that is not an error. *)
Theorem correlation_program_silent_refuted : ~ (forall F value show read directory regular decompressed writable load neg text17 text6 nan sd block err rel (o : options F) paths path,
  prints show read -> measured directory regular (rundirs o) paths -> In path paths ->
  help o = false -> snd (program F value read directory regular decompressed writable load neg text17 text6 nan sd block err rel o) = 0%Z ->
  fst (program F value read directory regular decompressed writable load neg text17 text6 nan sd block err rel o) <> []).
Proof.
  intros H. pose (none := fun _ : string => false). pose (t := fun _ : R => ""%string). pose (u := fun _ : list R => ""%string).
  pose proof (correlation_program_ex none t t "" u u u u) as E.
  specialize (H Z IZR str_of_Z Z_of_str ex_names (ex_contents ((1, 1, 0)%Z, ex_run) ((1, 1, 0)%Z, ex_run)) (fun c => c) none (ex_loaded 1) (fun z => Some z) t t ""%string u u u u (ex_options 2) ex_paths
    "run/fourierTransformedVelocities/0.data"%string integers_print (ex_measured _ _) ltac:(left; reflexivity) eq_refl).
  rewrite E in H. apply H; reflexivity.
Qed.
(** C111: data for too few times. *)
Corollary correlation_program_incomplete : forall F value show read directory regular decompressed writable load neg text17 text6 nan sd block err rel (o : options F) base dirs paths runs r x y z kT dt,
  prints show read -> help o = false -> saveFilename o = Some base -> rundirs o = dirs -> (0 < x)%Z -> (0 < y)%Z -> (0 < z)%Z -> 0 < dt ->
  agreed_integer load dirs (side "x") x -> agreed_integer load dirs (side "y") y -> agreed_integer load dirs (side "z") z ->
  agreed_number value load dirs temperature kT -> agreed_number value load dirs time_step dt ->
  measured directory regular dirs paths -> Forall2 (opens regular decompressed) paths (map (fun r => saveFourierTransformedVelocities F show (fst r) (snd r)) runs) ->
  (forall r, In r runs -> vector_of F value (fst r) <> Vec 0 0 0) -> In r runs ->
  ~ complete F value (x, y, z) (otherwise (option_map value (minimumTime o)) 0) (otherwise (option_map value (maxCorrelationTime o)) 250) dt runs (vector_of F value (fst r)) ->
  snd (program F value read directory regular decompressed writable load neg text17 text6 nan sd block err rel o) = 1%Z.
Proof.
  intros F value show read directory regular decompressed writable load neg text17 text6 nan sd block err rel o base dirs paths runs r x y z kT dt P H S R X Y Z' D Ax Ay Az At Ad M O N I C.
  pose proof (correlation_program_status F value read directory regular decompressed writable load neg text17 text6 nan sd block err rel o base dirs paths _ x y z kT dt H S R ltac:(lia) ltac:(lia) ltac:(lia) Ax Ay Az At Ad M O) as St.
  destruct (correlation_program_errors F value read directory regular decompressed writable load neg text17 text6 nan sd block err rel o) as ([E|E] & _); [|exact E]. exfalso. apply St in E.
  destruct (transverse_incomplete F value show read (x, y, z) (otherwise (option_map value (minimumTime o)) 0) (otherwise (option_map value (maxCorrelationTime o)) 250) dt runs r P ltac:(cbn [nonzero_box]; lia) D N I C) as (Q & _).
  rewrite Q in E. discriminate.
Qed.
Print Assumptions correlation_program_silent_refuted.
Print Assumptions correlation_program_incomplete.
Example correlation_program_nothing_ex : forall o, help o = false -> rundirs o = ["elsewhere"%string] ->
  program Z IZR Z_of_str ex_names (fun _ => None) (fun c => c) (fun _ => true) (ex_loaded 1) (fun z => Some z) (fun _ => ""%string) (fun _ => ""%string) ""%string (fun _ => ""%string) (fun _ => ""%string) (fun _ => ""%string) (fun _ => ""%string) o = ([], 1%Z).
Proof.
  intros o H R. apply correlation_program_nothing; [exact H| |].
  - rewrite R. intros p _ dir z [<-|[]] (c & L & _). discriminate.
  - right. exists time_step. split; [right; left; reflexivity|]. rewrite R. intros v (_ & A). destruct (A "elsewhere"%string (or_introl eq_refl)) as (d & (c & L & _) & _). discriminate.
Qed.
Example correlation_table_unfinished_ex : forall text17 nan sd block err rel,
  table_text text17 nan sd block err rel 0 [(0, [1; 2]); (1, [3])]
  = ((lines [correlation_row text17 sd block err rel 0 (3 / 2) [1; 2]] ++ text17 1 ++ tab ++ text17 2 ++ tab ++ text17 3 ++ tab ++ "1" ++ tab)%string, false).
Proof.
  intros. pose proof (correlation_table_unfinished text17 nan sd block err rel (fun s => match s with 0%nat => [1; 2] | _ => [3] end) 1 2 1) as H. cbv beta zeta iota in H.
  assert (M : mean_of [1; 2] = 3 / 2) by (unfold mean_of; cbn [fold_right length INR]; lra). rewrite M in H. cbn [seq map INR Nat.eqb length] in H.
  replace (0 * 1) with 0 in H by lra. replace (1 * 1) with 1 in H by lra. replace (3 / (3 / 2)) with 2 in H by lra. apply H; try lia; try lra. intros s L. destruct s; [cbn; lia|lia].
Qed.
Print Assumptions correlation_program_ex.
Print Assumptions correlation_tables_kept_refuted.
