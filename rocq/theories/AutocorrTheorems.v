(** C10: the on-the-fly autocorrelation. *)
From Verif Require Import QcBase PyBase OtfsModel OtfsSpec DddaModel DddaSpec
  AutocorrModel AutocorrSpec AutocorrProof.
Set Implicit Arguments.
Open Scope Qc_scope.

(** Every lag up to the maximum is available exactly if there is a pair of data
    that far apart, and its accumulator then holds exactly the lagged products,
    each once, in order of time; every other query is refused. *)
Theorem autocorr_stream_correct :
  forall (A : Type) (mul : A -> A -> Qc) m s (l : list A), ac_new A m = Ok s ->
  forall N : Z,
  ((N < 0 \/ m < N)%Z ->
     ac_available (fold_left (ac_add mul) l s) N = Err ValueError /\
     ac_get (fold_left (ac_add mul) l s) N = Err ValueError) /\
  ((0 <= N <= m)%Z ->
     ac_available (fold_left (ac_add mul) l s) N = Ok (Nat.ltb (Z.to_nat N) (length l)) /\
     ac_get (fold_left (ac_add mul) l s) N
     = (if Nat.ltb (Z.to_nat N) (length l)
        then Ok (fold_left ddda_add (lagged mul (Z.to_nat N) l) ddda_new)
        else Err ValueError)).
Proof. exact ac_correct. Qed.
Print Assumptions autocorr_stream_correct.

(** The reported sample size, mean and variance are those of the lagged products. *)
Theorem autocorr_statistics :
  forall (A : Type) (mul : A -> A -> Qc) m s (l : list A) N c, ac_new A m = Ok s ->
  ac_get (fold_left (ac_add mul) l s) N = Ok c ->
  answers (block c 0) (lagged mul (Z.to_nat N) l).
Proof. exact ac_mean. Qed.
Print Assumptions autocorr_statistics.

(** What the lagged products are. *)
Theorem autocorr_lagged_products :
  forall (A : Type) (mul : A -> A -> Qc) N (l : list A),
  length (lagged mul N l) = (length l - N)%nat /\
  forall t d, (t + N < length l)%nat ->
    nth t (lagged mul N l) 0 = mul (nth (t + N) l d) (nth t l d).
Proof.
  exact (fun A mul N l => conj (lagged_length mul N l) (fun t d => @lagged_nth A mul N l t d)).
Qed.
Print Assumptions autocorr_lagged_products.

(** Memory use stays bounded by the configured maximum. *)
Theorem autocorr_memory_bounded :
  forall (A : Type) (mul : A -> A -> Qc) m s (l : list A) N, ac_new A m = Ok s ->
  (N <= Z.to_nat m)%nat ->
  (length (nth N (ac_buf (fold_left (ac_add mul) l s)) []) <= N)%nat /\
  length (ac_buf (fold_left (ac_add mul) l s)) = S (Z.to_nat m).
Proof. exact ac_memory. Qed.
Print Assumptions autocorr_memory_bounded.

Example autocorr_ex :
  match ac_new Qc 2 with
  | Ok s =>
    match ac_get (fold_left (ac_add Qcmult) (map qz [1; 2; 3; 4]%Z) s) 2 with
    | Ok c => qeqb (o_M (block c 0)) (Q2Qc (11 # 2)) = true
    | Err _ => False
    end
  | Err _ => False
  end /\ lagged Qcmult 2 (map qz [1; 2; 3; 4]%Z) = map qz [3; 8]%Z.
Proof. split; [vm_compute; reflexivity|]. cbn. repeat f_equal; apply Qc_is_canon; reflexivity. Qed.
