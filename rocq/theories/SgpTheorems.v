(** C131: plots of analyses of star polymers, and their registry. *)
From Coq Require Import String List Bool Arith Lia.
From Verif Require Import PyBase SgpModel SgpSpec SgpProof.
Import ListNotations.
Open Scope string_scope.
Open Scope list_scope.

(** Analyses of numbers show one line, which has a point for each time, in order. *)
Theorem number_plotted : forall N c name (data : list (N * value N)), scalar_name c = Some name ->
  exists p, getMPLAxesForValueAsFunctionOfTime N c data = Ok p /\ shown p = [(name, data)] /\ ylabel N p = name /\
  xlabel N p = "Simulation Time t" /\ title N p = (if String.eqb name "Magnetic Cluster Count" then name else append "Star Polymer " name).
Proof.
  intros N c name data H.
  destruct c; cbn in H; inversion H; subst; cbn [getMPLAxesForValueAsFunctionOfTime]; unfold plot_scalar;
    (rewrite plot_line_ok by now rewrite !map_length); cbn; eexists; (split; [reflexivity|]);
    unfold shown, points; cbn; rewrite combine_self; repeat split.
Qed.
Print Assumptions number_plotted.
Example number_plotted_example :
  exists p, getMPLAxesForValueAsFunctionOfTime nat RadiusOfGyration [(0, Num 7); (5, Num 8)] = Ok p /\
  shown p = [("Radius of Gyration", [(0, Num 7); (5, Num 8)])] /\ title nat p = "Star Polymer Radius of Gyration".
Proof. eexists. split; [reflexivity|]. split; reflexivity. Qed.

(** Analyses of vectors show a line for each component. *)
Theorem vector_plotted : forall N c name (data : list (N * (N * N * N))), vector_name c = Some name ->
  exists p, getMPLAxesForValueAsFunctionOfTime N c (map vector_at data) = Ok p /\
  shown p = [(append name ": x Component", map (fun e => (fst e, Num (fst (fst (snd e))))) data);
             (append name ": y Component", map (fun e => (fst e, Num (snd (fst (snd e))))) data);
             (append name ": z Component", map (fun e => (fst e, Num (snd (snd e)))) data)] /\
  ylabel N p = append name " [rad/T]" /\ xlabel N p = "Simulation Time t" /\ title N p = append "Star Polymer " name.
Proof.
  intros N c name data H.
  destruct c; cbn in H; inversion H; subst; cbn [getMPLAxesForValueAsFunctionOfTime];
    rewrite (three_ok N _ (item N) vector_at (fun e => Num (fst (fst (snd e)))) (fun e => Num (snd (fst (snd e)))) (fun e => Num (snd (snd e))))
      by (intros [t [[x y] z]] _; repeat split);
    (eexists; split; [reflexivity|]; unfold shown, points; cbn; rewrite !combine_maps;
     split; [|repeat split]; repeat (apply f_equal2; [apply f_equal2; [reflexivity|apply map_ext]|]); [| | |reflexivity]; intros [t [[x y] z]]; reflexivity).
Qed.
Print Assumptions vector_plotted.
Example vector_plotted_example :
  exists p, getMPLAxesForValueAsFunctionOfTime nat RotationFrequencyVector (map vector_at [(0, (1, 2, 3)); (9, (4, 5, 6))]) = Ok p /\
  nth_error (shown p) 1 = Some ("Rotation Frequency: y Component", [(0, Num 2); (9, Num 5)]).
Proof. eexists. split; reflexivity. Qed.

(** Orientations: the angles are shown, not the eigenvalues, in the order in which the eigenvalues come. *)
Theorem angles_plotted : forall N (data : list (N * ((N * N) * (N * N) * (N * N)))),
  exists p, getMPLAxesForValueAsFunctionOfTime N OrientationAngles (map angles_at data) = Ok p /\
  shown p = [("Orientation Angle: Smallest Eigenvalue", map (fun e => (fst e, Num (snd (fst (fst (snd e)))))) data);
             ("Orientation Angle: Middle Eigenvalue", map (fun e => (fst e, Num (snd (snd (fst (snd e)))))) data);
             ("Orientation Angle: Largest Eigenvalue", map (fun e => (fst e, Num (snd (snd (snd e))))) data)] /\
  ylabel N p = "Orientation Angles [rad]" /\ xlabel N p = "Simulation Time t" /\ title N p = "Star Polymer Orientation Angles".
Proof.
  intros N data. cbn [getMPLAxesForValueAsFunctionOfTime].
  rewrite (three_ok N _ (second_of N) angles_at (fun e => Num (snd (fst (fst (snd e))))) (fun e => Num (snd (snd (fst (snd e))))) (fun e => Num (snd (snd (snd e)))))
    by (intros [t [[[l0 a0] [l1 a1]] [l2 a2]]] _; repeat split).
  eexists; split; [reflexivity|]. unfold shown, points; cbn; rewrite !combine_maps.
  split; [|repeat split]. repeat (apply f_equal2; [apply f_equal2; [reflexivity|apply map_ext]|]); [| | |reflexivity]; intros [t [[[l0 a0] [l1 a1]] [l2 a2]]]; reflexivity.
Qed.
Print Assumptions angles_plotted.
Example angles_plotted_example :
  exists p, getMPLAxesForValueAsFunctionOfTime nat OrientationAngles (map angles_at [(0, ((1, 10), (2, 20), (3, 30)))]) = Ok p /\
  nth_error (shown p) 2 = Some ("Orientation Angle: Largest Eigenvalue", [(0, Num 30)]).
Proof. eexists. split; reflexivity. Qed.

(** Vectors with too few components are refused. *)
Theorem short_vectors_refused : forall N c name (data : list (N * value N)), vector_name c = Some name ->
  Forall (fun v => exists l, v = Lst l) (map snd data) -> Exists (fun v => exists l, v = Lst l /\ List.length l < 3) (map snd data) ->
  getMPLAxesForValueAsFunctionOfTime N c data = Err IndexError.
Proof.
  intros N c name data H F X.
  destruct c; cbn in H; inversion H; cbn [getMPLAxesForValueAsFunctionOfTime]; unfold plot_three; rewrite components_short; auto.
Qed.
Print Assumptions short_vectors_refused.
Example short_vectors_refused_example :
  getMPLAxesForValueAsFunctionOfTime nat EckartAngularVelocityVector [(0, Lst [Num 1; Num 2; Num 3]); (1, Lst [Num 1; Num 2])] = Err IndexError.
Proof. reflexivity. Qed.

(** A registry takes each name once, takes only classes, and keeps their order. *)
Theorem class_registered : forall r cls,
  match cls with
  | NoClass => register r cls = Err ValueError
  | Class name _ => (registered r name -> register r cls = Err ValueError) /\ (~ registered r name -> register r cls = Ok (r ++ [(name, cls)]))
  end.
Proof.
  intros r [name id|]; [|reflexivity]. unfold register. rewrite <- existsb_names.
  destruct (existsb _ r); split; intros H; try reflexivity; [now destruct H|discriminate].
Qed.
Print Assumptions class_registered.
Example class_registered_example :
  register [("A", Class "A" 0)] (Class "B" 1) = Ok [("A", Class "A" 0); ("B", Class "B" 1)] /\
  register [("A", Class "A" 0)] (Class "A" 1) = Err ValueError /\ register [] NoClass = Err ValueError.
Proof. repeat split. Qed.

(** There is one registry. *)
Theorem one_registry : new_registry None = Ok [] /\ forall r, exists e, new_registry (Some r) = Err e.
Proof. split; [reflexivity|]. intros. eexists. reflexivity. Qed.
Print Assumptions one_registry.
Example one_registry_example : exists e, new_registry (Some [("A", Class "A" 0)]) = Err e.
Proof. eexists. reflexivity. Qed.

(** After the import, each analysis is registered once under its name, the potential energy first and the others in alphabetical order;
    no two analyses share a name or a file in the cache. *)
Theorem analyses_registered :
  exists r, getRegisteredClasses = Ok r /\ NoDup (map fst r) /\ (forall c, In (class_name c, Class (class_name c) (class_id c)) r) /\
  map fst r = ["PotentialEnergy"; "Acylindricity"; "Asphericity"; "EckartAngularVelocityVector"; "GyrationTensor"; "MagneticClusterCount";
               "OrientationAngles"; "RadiusOfGyration"; "RelativeShapeAnisotropy"; "RotationFrequencyVector"].
Proof.
  eexists. split; [vm_compute; reflexivity|]. split; [|split].
  - cbn. repeat constructor; cbn; intros H; repeat (destruct H as [H|H]; [discriminate|]); exact H.
  - intros []; cbn; tauto.
  - reflexivity.
Qed.
Print Assumptions analyses_registered.
Example analyses_registered_example :
  (do r <- getRegisteredClasses; register r (Class "Asphericity" 77)) = Err ValueError.
Proof. vm_compute. reflexivity. Qed.
Theorem cache_files_distinct : forall c d, cache_filename c = cache_filename d -> c = d.
Proof. intros [] []; cbn; intros H; try reflexivity; discriminate. Qed.
Print Assumptions cache_files_distinct.
Example cache_files_distinct_example : cache_filename RotationFrequencyVector = "rotationFrequencies.txt".
Proof. reflexivity. Qed.

(** Not all registered analyses can be plotted: that of the gyration tensor cannot, whatever the data; the others can, even with no data. *)
Theorem registered_plotted_refuted :
  (exists r, getRegisteredClasses = Ok r /\ registered r (class_name GyrationTensor)) /\
  (forall N data, getMPLAxesForValueAsFunctionOfTime N GyrationTensor data = Err AttributeError) /\
  (forall N c, c <> GyrationTensor -> exists p, getMPLAxesForValueAsFunctionOfTime N c [] = Ok p).
Proof.
  split; [|split].
  - eexists. split; [vm_compute; reflexivity|]. cbn. tauto.
  - reflexivity.
  - intros N [] H; try (eexists; reflexivity). now destruct H.
Qed.
Print Assumptions registered_plotted_refuted.
Example registered_plotted_refuted_example :
  getMPLAxesForValueAsFunctionOfTime nat GyrationTensor [(0, Lst [Num 1])] = Err AttributeError.
Proof. reflexivity. Qed.

(** The program with windows shows analyses that can be plotted, each once. *)
Theorem windows_plotted : NoDup gui_plots /\ forall c, In c gui_plots <-> c <> GyrationTensor /\ c <> EckartAngularVelocityVector.
Proof.
  split.
  - repeat constructor; cbn; intros H; repeat (destruct H as [H|H]; [discriminate|]); exact H.
  - intros c. split.
    + cbn. intros H. repeat (destruct H as [<-|H]; [split; discriminate|]). destruct H.
    + intros [A B]. destruct c; cbn; tauto.
Qed.
Print Assumptions windows_plotted.
Example windows_plotted_example : In MagneticClusterCount gui_plots.
Proof. cbn. tauto. Qed.
