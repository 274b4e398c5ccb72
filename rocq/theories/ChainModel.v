(** The squared bond lengths of Gaussian chains (CUDA/MPCFluid/Instrumentation/GaussianChains.cpp).
    Simplifications: exact arithmetic; the numbers are left as numbers rather than printed; a standard deviation or standard error
    is represented by its square; numbers of particles do not overflow. *)
From Verif Require Import QcBase PyBase OtfsModel DddaModel.
Open Scope Qc_scope.

(** Positions by particle (CUDA/MPCFluid/Instrumentation/GaussianChains.cpp l.65-68). *)
Record position := Position { px : Qc; py : Qc; pz : Qc }.
(** CUDA/MPCFluid/Instrumentation/GaussianChains.cpp l.65-71. *)
Definition squared_distance (a b : position) : Qc :=
  (px a - px b) * (px a - px b) + (py a - py b) * (py a - py b) + (pz a - pz b) * (pz a - pz b).
(** The accumulators; [None] if no measurement is configured (CUDA/MPCFluid/Instrumentation/GaussianChains.cpp l.32-45). *)
Definition chains := option (list ddda).
(** CUDA/MPCFluid/Instrumentation/GaussianChains.cpp l.32-45. *)
Definition chains_new (configured : bool) (chainLength : nat) : result chains :=
  if configured then
    if Nat.ltb chainLength 2 then Err PyException
    else Ok (Some (repeat ddda_new (chainLength - 1)))
  else Ok None.
(** [addDatum] for bond [p] (CUDA/MPCFluid/Instrumentation/GaussianChains.cpp l.70-71). *)
Fixpoint add_at (l : list ddda) (p : nat) (x : Qc) : list ddda :=
  match l, p with
  | [], _ => []
  | d :: l', O => ddda_add d x :: l'
  | d :: l', Datatypes.S p' => d :: add_at l' p' x
  end.
(** CUDA/MPCFluid/Instrumentation/GaussianChains.cpp l.63-72: the inner loop. *)
Definition chain_measure (x : nat -> position) (particlesPerChain chain : nat) (l : list ddda) : list ddda :=
  let firstParticleID := (chain * particlesPerChain)%nat in
  fold_left (fun l p => add_at l p (squared_distance (x (firstParticleID + p)%nat) (x (firstParticleID + p + 1)%nat)))
    (seq 0 (particlesPerChain - 1)) l.
(** CUDA/MPCFluid/Instrumentation/GaussianChains.cpp l.48-75. *)
Definition chains_measure (x : nat -> position) (chainCount particlesPerChain : nat) (c : chains) : chains :=
  match c with
  | None => None
  | Some l => Some (fold_left (fun l chain => chain_measure x particlesPerChain chain l) (seq 0 chainCount) l)
  end.
(** CUDA/MPCFluid/Instrumentation/GaussianChains.cpp l.48-75: measurements of the given positions. *)
Definition chains_measure_all (xs : list (nat -> position)) (chainCount particlesPerChain : nat) (c : chains) : chains :=
  fold_left (fun c x => chains_measure x chainCount particlesPerChain c) xs c.
(** ImplementationDetails/OnTheFlyStatisticsDDDA.hpp l.188-196. *)
Definition cpp_optimalIsReliable (d : ddda) : result bool :=
  do b <- cpp_optimalBlockID d;
  Ok (Nat.ltb (50 * Nat.pow 2 b) (ddda_size d)).
(** ImplementationDetails/OnTheFlyStatisticsDDDA.hpp l.198-204, squared. *)
Definition cpp_optimalStandardError_squared (d : ddda) : result Qc :=
  do b <- cpp_optimalBlockID d;
  do h <- hasBlockVariance d b;
  if h then getStandardErrorOfTheMean_squared (block d b) else Err RuntimeError.
(** A line of the file (CUDA/MPCFluid/Instrumentation/GaussianChains.cpp l.93-108). *)
Record row := Row { bond_number : nat; row_mean : Qc; row_size : nat; row_deviation2 : Qc; row_block : nat; row_error2 : Qc; row_reliable : bool }.
(** CUDA/MPCFluid/Instrumentation/GaussianChains.cpp l.93-108. *)
Definition chain_row (bond : nat) (d : ddda) : result row :=
  do v <- blockVariance d 0;
  do m <- ddda_mean d;
  do b <- cpp_optimalBlockID d;
  do e <- cpp_optimalStandardError_squared d;
  do r <- cpp_optimalIsReliable d;
  Ok (Row bond m (ddda_size d) v b e r).
(** The loop CUDA/MPCFluid/Instrumentation/GaussianChains.cpp l.91-109: the lines that were written, and the exception that ended the loop, if any. *)
Fixpoint chain_rows (bond : nat) (l : list ddda) : list row * result unit :=
  match l with
  | [] => ([], Ok tt)
  | d :: l' =>
    match chain_row bond d with
    | Err e => ([], Err e)
    | Ok r => let (rs, o) := chain_rows (bond + 1) l' in (r :: rs, o)
    end
  end.
(** CUDA/MPCFluid/Instrumentation/GaussianChains.cpp l.77-111; no file is written if nothing is configured. *)
Definition chains_save (c : chains) : option (list row * result unit) :=
  match c with None => None | Some l => Some (chain_rows 0 l) end.
