(** Flow profiles: reading and pooling (C29), recording in blocks (C60), and
    handing results from the simulation to the analysis (C70). *)
From Verif Require Import QcBase PyBase DictBase NumFmt OtfsModel OtfsSpec FlowModel FlowSpec FlowProof.
Set Implicit Arguments.
Open Scope Qc_scope.

(** C29: after any number of runs has been read, the profile has an entry for
    exactly the [y] values that occur in the files, and that entry answers as
    one statistics object holding all data behind all lines with that [y]. *)
Theorem flow_profile_pooled : forall dat d0 ds s0 s shift,
  fp_new d0 = Ok s0 -> add_runs s0 ds = Ok s ->
  f_sub (rd_config d0) <> 0%nat ->
  (forall d, In d (d0 :: ds) -> no_blank d) ->
  (forall r, In r (flat_map rows_of (d0 :: ds)) -> row_describes r (dat r)) ->
  exists ret, getFlowProfileAsFunctionOfY s shift = Ok ret /\
  forall y : Z,
    match dget qeqb ret (yCoord (f_sub (rd_config d0)) shift y) with
    | None => ~ exists r, In r (flat_map rows_of (d0 :: ds)) /\ r_y r = y
    | Some t =>
      (exists r, In r (flat_map rows_of (d0 :: ds)) /\ r_y r = y) /\
      forall i, (i < 3)%nat ->
        answers (comp i t) (pooled dat i (fun r => Z.eqb (r_y r) y) (flat_map rows_of (d0 :: ds)))
    end.
Proof. exact flow_pooled. Qed.
Print Assumptions flow_profile_pooled.

Definition ex_row x y z m v n := mk_row x y z (m, m, m) (v, v, v) n.
Definition ex_cfg := mk_fconfig 1 0 2.
Definition ex_run1 := mk_rundir ex_cfg (Some [LComment;
  LRow (Some (ex_row 0 0 0 (qz 2) (qz 2) 2)); LRow (Some (ex_row 0 1 0 (qz 5) 0 1))]).
Definition ex_run2 := mk_rundir ex_cfg (Some [LComment;
  LRow (Some (ex_row 0 0 0 (qz 8) 0 1)); LRow (Some (ex_row 1 0 0 0 0 0))]).
Definition ex_read (ds : list rundir) : option (otfs3 * otfs3) :=
  match ds with
  | [] => None
  | d0 :: ds =>
    match fp_new d0 with
    | Ok s0 =>
      match add_runs s0 ds with
      | Ok s =>
        match getFlowProfileAsFunctionOfY s false, getGlobalFlowStatistics s with
        | Ok ret, Ok t => option_map (fun u => (u, t)) (dget qeqb ret 0)
        | _, _ => None
        end
      | _ => None
      end
    | _ => None
    end
  end.
Example flow_profile_pooled_ex :
  match ex_read [ex_run1; ex_run2] with
  | Some (u, _) => Nat.eqb (getSampleSize (comp 0 u)) 3 &&
      match getSampleMean (comp 0 u) with Ok m => qeqb m (qz 4) | _ => false end
  | None => false
  end = true.
Proof. vm_compute. reflexivity. Qed.

Theorem flow_global_pooled : forall dat d0 ds s0 s,
  fp_new d0 = Ok s0 -> add_runs s0 ds = Ok s ->
  (forall d, In d (d0 :: ds) -> no_blank d) ->
  (forall r, In r (flat_map rows_of (d0 :: ds)) -> row_describes r (dat r)) ->
  exists t, getGlobalFlowStatistics s = Ok t /\
  forall i, (i < 3)%nat ->
    answers (comp i t) (pooled dat i (fun _ => true) (flat_map rows_of (d0 :: ds))).
Proof. exact flow_global. Qed.
Print Assumptions flow_global_pooled.

Example flow_global_pooled_ex :
  match ex_read [ex_run1; ex_run2] with
  | Some (_, t) => Nat.eqb (getSampleSize (comp 2 t)) 4
  | None => false
  end = true.
Proof. vm_compute. reflexivity. Qed.

(** A file with more than one block: the profile and the global statistics
    become empty, also what earlier runs contributed, and no more runs can be
    added. *)
Theorem flow_multi_block_profile_refuted : forall s d s' shift, addRun s d = Ok s' ->
  (exists ls, rd_file d = Some ls /\ In LBlank ls) ->
  getFlowProfileAsFunctionOfY s' shift = Ok [] /\ getGlobalFlowStatistics s' = Ok otfs3_new /\
  forall d', addRun s' d' = Err PyException.
Proof. exact blocks_hide_profile. Qed.
Print Assumptions flow_multi_block_profile_refuted.

Definition ex_run3 := mk_rundir ex_cfg (Some [LComment;
  LRow (Some (ex_row 0 0 0 (qz 2) (qz 2) 2)); LBlank; LRow (Some (ex_row 0 0 0 (qz 5) 0 1))]).
Example flow_multi_block_ex : is_ok (do s0 <- fp_new ex_run1; addRun s0 ex_run3) = true.
Proof. vm_compute. reflexivity. Qed.

(** C60: the number of blocks, and what each block answers for each cell. *)
Theorem flow_blocks : forall box subs per s0 os s,
  cfp_new box subs per = Ok s0 -> frun s0 os = Ok s ->
  length (blocks_in_order s) = block_total per (sweeps os) /\
  forall b B, nth_error (blocks_in_order s) b = Some B ->
  forall c i, (i < 3)%nat ->
    answers (comp i (B c)) (map (comp i) (recorded 0 os (in_block per b) (cell_eqb c))).
Proof. exact flow_record. Qed.
Print Assumptions flow_blocks.

(** Recording succeeds exactly if every datum comes after some sweep has begun
    and lies in a cell. *)
Theorem flow_recording_accepts : forall box subs per s0 os, cfp_new box subs per = Ok s0 ->
  (exists s, frun s0 os = Ok s) <->
  (forall pre c v post, os = pre ++ FAdd c v :: post ->
     (0 < sweeps pre)%nat /\ in_shape (c_shape s0) c = true).
Proof. exact flow_record_ok. Qed.
Print Assumptions flow_recording_accepts.

Definition ex_v (a : Z) : vec := (qz a, qz (a + 1), qz 0).
Definition ex_ops : list fop :=
  [FSweep; FAdd (0, 0, 0)%nat (ex_v 1); FSweep; FAdd (0, 0, 0)%nat (ex_v 3);
   FAdd (0, 1, 0)%nat (ex_v 7); FSweep; FAdd (0, 0, 0)%nat (ex_v 5)].
Example flow_blocks_ex :
  match cfp_new (1, 2, 1)%nat (1, 1, 1)%nat 2 with
  | Ok s0 =>
    match frun s0 ex_ops with
    | Ok s => map (fun B : fblock => getSampleSize (comp 0 (B (0, 0, 0)%nat))) (blocks_in_order s)
    | _ => []
    end
  | _ => []
  end = [2; 1]%nat /\
  recorded 0 ex_ops (in_block 2 0) (cell_eqb (0, 0, 0)%nat) = [ex_v 1; ex_v 3] /\
  recorded 0 ex_ops (in_block 2 1) (cell_eqb (0, 0, 0)%nat) = [ex_v 5].
Proof. repeat split; reflexivity. Qed.

(** C70: what the simulation has recorded, written to a file and read by the
    analysis, without subdivided cells and in one block. *)
Theorem flow_simulation_to_analysis :
  forall (fmt fmt_sd : Qc -> string) (parse_int : string -> option Z) (parse parse_sq : string -> option Qc),
  (forall x, parse (fmt x) = Some x) ->
  (forall x, 0 <= x -> parse_sq (fmt_sd x) = Some x) ->
  (forall z, parse_int (fmt (qz z)) = Some z) ->
  (forall x, has_char tab (fmt x) = false /\ has_char nl (fmt x) = false /\
     has_char "#" (fmt x) = false /\ fmt x <> EmptyString) ->
  (forall x, has_char tab (fmt_sd x) = false /\ has_char nl (fmt_sd x) = false) ->
  forall box per s0 os s cfg shift,
  cfp_new box (1, 1, 1)%nat per = Ok s0 -> frun s0 os = Ok s ->
  block_total per (sweeps os) = 1%nat -> f_sub cfg = 1%nat ->
  exists p ret,
    fp_new (mk_rundir cfg (Some (parse_file parse_int parse parse_sq (file_text fmt fmt_sd s)))) = Ok p /\
    getFlowProfileAsFunctionOfY p shift = Ok ret /\
    let '(bx, by_, bz) := box in
    (0 < bx)%nat -> (0 < bz)%nat -> forall y, (y < by_)%nat ->
    exists t, dget qeqb ret (yCoord 1 shift (Z.of_nat y)) = Some t /\
    forall i, (i < 3)%nat ->
      answers (comp i t) (map (comp i) (recorded 0 os (fun _ => true) (fun c => Nat.eqb (snd (fst c)) y))).
Proof. exact flow_end_to_end. Qed.
Print Assumptions flow_simulation_to_analysis.

(** With subdivided cells, the analysis rejects every such file. *)
Theorem flow_subdivided_unreadable_refuted :
  forall (fmt fmt_sd : Qc -> string) (parse_int : string -> option Z) (parse parse_sq : string -> option Qc),
  (forall x, parse (fmt x) = Some x) ->
  (forall x, 0 <= x -> parse_sq (fmt_sd x) = Some x) ->
  (forall x, has_char tab (fmt x) = false /\ has_char nl (fmt x) = false /\
     has_char "#" (fmt x) = false /\ fmt x <> EmptyString) ->
  (forall x, has_char tab (fmt_sd x) = false /\ has_char nl (fmt_sd x) = false) ->
  (forall x, (forall z, x <> qz z) -> parse_int (fmt x) = None) ->
  forall box subs per s0 os s cfg, cfp_new box subs per = Ok s0 ->
  frun s0 os = Ok s -> block_total per (sweeps os) = 1%nat ->
  (let '(bx, by_, bz) := box in 0 < bx /\ 0 < by_ /\ 0 < bz)%nat ->
  (let '(_, sy, _) := subs in 1 < sy)%nat ->
  fp_new (mk_rundir cfg (Some (parse_file parse_int parse parse_sq (file_text fmt fmt_sd s)))) = Err ValueError.
Proof. exact subdivided_unreadable. Qed.
Print Assumptions flow_subdivided_unreadable_refuted.

(** A formatting with the properties that the two theorems ask for. *)
Definition ex_parse_int (s : string) : option Z :=
  match parse_q s with
  | Some x => if Pos.eqb (Qden (this x)) 1 then Some (Qnum (this x)) else None
  | None => None
  end.
Example flow_formatting_ex :
  (forall x, parse_q (fmt_q x) = Some x) /\
  (forall z, ex_parse_int (fmt_q (qz z)) = Some z) /\
  (forall x, (forall z, x <> qz z) -> ex_parse_int (fmt_q x) = None) /\
  (forall x, has_char tab (fmt_q x) = false /\ has_char nl (fmt_q x) = false /\
     has_char "#" (fmt_q x) = false /\ fmt_q x <> EmptyString).
Proof.
  split; [apply parse_fmt_q|]. unfold ex_parse_int. split; [|split].
  - intros z. rewrite parse_fmt_q. unfold qz. cbn [this Q2Qc].
    rewrite Qred_identity by (apply Z.gcd_1_r). reflexivity.
  - intros x H. rewrite parse_fmt_q. destruct (Pos.eqb_spec (Qden (this x)) 1) as [E|E]; [|reflexivity].
    exfalso. apply (H (Qnum (this x))). apply Qc_is_canon. destruct x as [[n d] c].
    cbn [this Qden Qnum] in *. subst d. unfold qz. cbn [this Q2Qc].
    rewrite Qred_identity by (apply Z.gcd_1_r). reflexivity.
  - intros x. repeat split; try (apply fmt_q_no; reflexivity). apply fmt_q_nonempty.
Qed.
Definition ex_pipeline : option nat :=
  match cfp_new (1, 2, 1)%nat (1, 1, 1)%nat 0 with
  | Ok s0 =>
    match frun s0 ex_ops with
    | Ok s =>
      match fp_new (mk_rundir ex_cfg (Some (parse_file ex_parse_int parse_q parse_q (file_text fmt_q fmt_q s)))) with
      | Ok p =>
        match getFlowProfileAsFunctionOfY p false with
        | Ok ret => option_map (fun t => getSampleSize (comp 0 t)) (dget qeqb ret 0)
        | _ => None
        end
      | _ => None
      end
    | _ => None
    end
  | _ => None
  end.
Example flow_simulation_to_analysis_ex : ex_pipeline = Some 3%nat.
Proof. vm_compute. reflexivity. Qed.
