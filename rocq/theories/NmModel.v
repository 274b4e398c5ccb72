(** Normal modes of chains: their computation, their autocorrelations, the measurement in the
    simulation (NormalModeAutocorrelation.cpp) and its analysis (NormalModeAutocorrelation.py).
    Simplifications: exact real arithmetic; fewer than 2^32 sweeps and measurements; debug
    assertions are omitted; since the threads of a kernel write to different elements, they are
    executed one after the other, in an arbitrary order; the comparison of configurations is
    left out. *)
From Coq Require Import List ZArith Bool Reals String Ascii.
From Verif Require Import PyBase StrBase VecBase VecModel CuModel QcBase VtfModel VtfPyModel OtfsModel DddaModel.
From Verif Require StarModel.
Import ListNotations.
Open Scope R_scope.
Open Scope list_scope.

(** NormalMode.cu l.17-26: device memory, to which [positions] and [normalModeCoordinates] point;
    the numbers at all addresses, in units of the size of a number. *)
Definition memory := Z -> R.
(** RemotelyStoredVector.hpp l.37-40, l.58-66: the vector with index [i] of an array. *)
Definition load (m : memory) (base i : Z) : vec :=
  Vec (m (base + 3 * i)%Z) (m (base + 3 * i + 1)%Z) (m (base + 3 * i + 2)%Z).
(** RemotelyStoredVector.hpp l.222-245: assignment to it. *)
Definition store (m : memory) (base i : Z) (v : vec) : memory := fun a =>
  if Z.eqb a (base + 3 * i)%Z then vx v
  else if Z.eqb a (base + 3 * i + 1)%Z then vy v
  else if Z.eqb a (base + 3 * i + 2)%Z then vz v
  else m a.
(** MathematicalFunctions.hpp (ImplementationDetails) l.73-82. *)
Definition cospi (x : R) : R := cos (x * PI).

(** include/OpenMPCD/ImplementationDetails/NormalMode.hpp l.20-40; on the host. *)
Definition host_computeNormalCoordinate (i : nat) (vectors : nat -> vec) (N : nat) (shift : R) : vec :=
  let argPart := INR i * PI / INR N in
  vdivs (fold_left (fun ret n => vadd ret (vscale (cos (argPart * (INR n + shift))) (vectors (n - 1)%nat))) (seq 1 N) (Vec 0 0 0))
    (INR N).
(** include/OpenMPCD/CUDA/DeviceCode/ImplementationDetails/NormalMode.hpp l.51-75. *)
Definition computeNormalCoordinate (m : memory) (i vectors N : Z) (shift : R) : vec :=
  let argPart := IZR i / IZR N in
  vdivs (fold_left (fun ret n => vadd ret (vscale (cospi (argPart * (IZR (n + 1) + shift))) (load m vectors n))) (zrange N) (Vec 0 0 0))
    (IZR N).
(** CUDA/DeviceCode/ImplementationDetails/NormalMode.hpp l.77-91; the loop over [i]. *)
Definition chainNormalCoordinates (m : memory) (vectors N result : Z) (shift : R) : memory :=
  fold_left (fun m i => store m result i (computeNormalCoordinate m i vectors N shift)) (zrange (N + 1)) m.
(** CUDA/DeviceCode/ImplementationDetails/NormalMode.hpp l.93-120: the thread for the work unit [chainID]. *)
Definition nm_thread (chainLength chainCount positions normalModeCoordinates : Z) (shift : R) (m : memory) (chainID : Z) : memory :=
  if Z.leb chainCount chainID then m
  else chainNormalCoordinates m (positions + u32 (3 * chainID * chainLength)) chainLength
         (normalModeCoordinates + u32 (3 * chainID * (chainLength + 1))) shift.
(** NormalMode.cu l.17-45; [units] are the work units of all threads, see [StarModel.launched]. *)
Definition computeNormalCoordinates (units : list Z) (chainLength chainCount positions normalModeCoordinates : Z) (shift : R)
  (m : memory) : memory :=
  fold_left (nm_thread chainLength chainCount positions normalModeCoordinates shift) units m.

(** [thrust::inner_product] (NormalMode.cu l.87-93). *)
Fixpoint inner_product (m : memory) (l l' : list Z) (init : R) : R :=
  match l, l' with a :: l, b :: l' => inner_product m l l' (init + m a * m b) | _, _ => init end.
(** The addresses in a [BunchIteratorRange] from [first] to [last] with bunches of 3
    (NormalMode.cu l.75-84); the computation of its end takes at most [last - first] steps. *)
Definition nm_range (first last gapSize : Z) : option (list Z) :=
  option_map (map (fun k => first + k)%Z) (bunch_visited (S (Z.to_nat (last - first))) 3 gapSize (last - first)).
(** NormalMode.cu l.70-99: the result for a mode. *)
Definition nm_mode (m : memory) (chainLength chainCount normalModes0 normalModesT mode : Z) : option R :=
  let gapSize := u32 (3 * chainLength) in
  let offset := u32 (3 * mode) in
  let count := u32 (3 * chainCount * (chainLength + 1)) in
  match nm_range (normalModes0 + offset) (normalModes0 + count) gapSize,
        nm_range (normalModesT + offset) (normalModesT + count) gapSize with
  | Some l, Some l' => Some (inner_product m l l' 0 / IZR chainCount)
  | _, _ => None
  end.
(** NormalMode.cu l.67-99: all of them, unless one does not end. *)
Fixpoint all_some {A} (l : list (option A)) : option (list A) :=
  match l with
  | [] => Some []
  | Some a :: l => match all_some l with Some r => Some (a :: r) | None => None end
  | None :: _ => None
  end.
(** NormalMode.cu l.47-102. *)
Definition getAverageNormalCoordinateAutocorrelation (m : memory) (chainLength chainCount normalModes0 normalModesT : Z) : option (list R) :=
  all_some (map (nm_mode m chainLength chainCount normalModes0 normalModesT) (zrange (chainLength + 1))).

(** CUDA/ImplementationDetails/DeviceBuffer.hpp l.18-29 and CUDA/DeviceMemoryManager.hpp l.119-127, l.152-164: for how
    many elements of [size] bytes the constructor of a buffer for [count] elements allocates memory; the
    factor [sizeof(T)] is applied in both places, and [instanceCount] is an [unsigned int]. *)
Definition deviceBufferRoom (size count : Z) : Z := u32 (size * count).
Section Nm.
(** [getNumberOfParticlesPerLogicalEntity], [getNumberOfLogicalEntities], [getDevicePositions]. *)
Variables chainLength chainCount positions : Z.
(** [measureEveryNthSweep], [autocorrelationArgumentCount] and [shift] (NormalModeAutocorrelation.cpp l.42-47). *)
Variables every count : nat.
Variable shift : R.
(** The addresses of the buffers [snapshots] (NormalModeAutocorrelation.cpp l.55-59). *)
Variable snapshots : nat -> Z.
(** NormalModeAutocorrelation.cpp l.52-54: how many numbers each of them is made for. *)
Definition bufferElementCount : Z := u32 (chainCount * u32 (chainLength + 1)).

(** The fields (NormalModeAutocorrelation.hpp l.270-280), and device memory. *)
Record nm := Nm { device : memory; sweeps : nat; autocorrelations : list (list (list R)) }.
(** NormalModeAutocorrelation.cpp l.23-60. *)
Definition nm_new (m : memory) : nm := Nm m 0 [].
(** NormalModeAutocorrelation.cpp l.138-143: what [getDevicePositions] points to; the positions [x] are stored, the rest of the memory is left alone. *)
Definition simulate (m : memory) (x : Z -> R) : memory :=
  fun a => if Z.leb positions a && Z.ltb a (positions + 3 * chainCount * chainLength) then x (a - positions)%Z else m a.
(** NormalModeAutocorrelation.cpp l.117-135; [None] is NULL. *)
Definition nm_buffers (now : nat) : list (option Z) :=
  map (fun i => if Nat.ltb now i then None else Some (snapshots (Nat.modulo (now - i) count))) (seq 0 count).
(** NormalModeAutocorrelation.cpp l.150-163. *)
Fixpoint nm_lags (m : memory) (current : Z) (buffers : list (option Z)) : option (list (list R)) :=
  match buffers with
  | Some b :: r =>
    match getAverageNormalCoordinateAutocorrelation m chainLength chainCount b current, nm_lags m current r with
    | Some v, Some l => Some (v :: l)
    | _, _ => None
    end
  | _ => Some []
  end.
(** NormalModeAutocorrelation.cpp l.106-164; [units] are the work units of the threads, [None] means that it does not end. *)
Definition nm_measure (units : list Z) (st : nm) : option nm :=
  let sw := S (sweeps st) in
  if negb (Nat.eqb sw every) && negb (Nat.eqb (length (autocorrelations st)) 0)
  then Some (Nm (device st) sw (autocorrelations st))
  else
    match nm_buffers (length (autocorrelations st)) with
    | Some b0 :: r =>
      let m := computeNormalCoordinates units chainLength chainCount positions b0 shift (device st) in
      match nm_lags m b0 (Some b0 :: r) with
      | Some l => Some (Nm m 0 (autocorrelations st ++ [l]))
      | None => None
      end
    | _ => None (* undefined behaviour: no buffers *)
    end.
(** NormalModeAutocorrelation.cpp l.106-164, called after each sweep of a run: for each sweep, the positions after it, and the work units of the threads. *)
Fixpoint nm_run (calls : list ((Z -> R) * list Z)) (st : nm) : option nm :=
  match calls with
  | [] => Some st
  | (x, units) :: r =>
    match nm_measure units (Nm (simulate (device st) x) (sweeps st) (autocorrelations st)) with
    | Some st' => nm_run r st'
    | None => None
    end
  end.
(** NormalModeAutocorrelation.cpp l.178-199; [None] is undefined behaviour. *)
Definition getAutocorrelation (st : nm) (t T normalMode : nat) : option R :=
  match nth_error (autocorrelations st) T with
  | Some l => match nth_error l (T - t) with Some v => nth_error v normalMode | None => None end
  | None => None
  end.

(** [stream << x] with [digits10 + 2] digits. *)
Variable show : R -> string.
(** NormalModeAutocorrelation.cpp l.216-219: a row. *)
Definition nm_row (t dT : nat) (vs : list R) : string :=
  (str_of_Z (Z.of_nat t) ++ String "009" (str_of_Z (Z.of_nat dT)) ++ concat_text (map (fun v => String "009" (show v)) vs) ++ eol)%string.
(** NormalModeAutocorrelation.cpp l.210-220. *)
Fixpoint nm_save_lags (st : nm) (t : nat) (dTs : list nat) : option string :=
  match dTs with
  | [] => Some ""%string
  | dT :: r =>
    let T := (t + dT)%nat in
    if Nat.leb (length (autocorrelations st)) T then Some ""%string
    else match all_some (map (getAutocorrelation st t T) (seq 0 (Z.to_nat chainLength + 1))), nm_save_lags st t r with
         | Some vs, Some s => Some (nm_row t dT vs ++ s)%string
         | _, _ => None
         end
  end.
(** NormalModeAutocorrelation.cpp l.208-221. *)
Fixpoint nm_save_times (st : nm) (ts : list nat) : option string :=
  match ts with
  | [] => Some ""%string
  | t :: r =>
    match nm_save_lags st t (seq 0 count), nm_save_times st r with
    | Some a, Some b => Some (a ++ b)%string
    | _, _ => None
    end
  end.
(** NormalModeAutocorrelation.cpp l.201-235: the contents of the file. *)
Definition nm_save (st : nm) : option string := nm_save_times st (seq 0 (length (autocorrelations st))).
End Nm.

Section Py.
(** The interpreter is Python 3. *)
Variable python3 : bool.
(** [float], in Python. *)
Variable float : string -> option Qc.
(** [_autocorrelationArgumentCount] (Analysis/MPCDAnalysis/NormalModeAutocorrelation.py l.65-68). *)
Variable count : nat.
(** [_measurements] (Analysis/MPCDAnalysis/NormalModeAutocorrelation.py l.48): by mode, starting time and correlation
    time; [_normalModeCount] (l.49) is their number, or [None] if no line has been read. *)
Record analysis := Analysis { measurements : list (list (list Qc)); normalModeCount : option nat }.
(** Analysis/MPCDAnalysis/NormalModeAutocorrelation.py l.47-50. *)
Definition nma_new : analysis := Analysis [] None.
(** Analysis/MPCDAnalysis/NormalModeAutocorrelation.py l.263-267, the place of index [i] in a list of length [n]. *)
Definition py_index (i : Z) (n : nat) : result nat :=
  if Z.leb 0 i then if Z.ltb i (Z.of_nat n) then Ok (Z.to_nat i) else Err IndexError
  else if Z.leb 0 (i + Z.of_nat n) then Ok (Z.to_nat (i + Z.of_nat n)) else Err IndexError.
(** Analysis/MPCDAnalysis/NormalModeAutocorrelation.py l.267: [l[k].append(x)]. *)
Fixpoint append_at (l : list (list Qc)) (k : nat) (x : Qc) : list (list Qc) :=
  match l, k with
  | [], _ => []
  | a :: l, O => (a ++ [x]) :: l
  | a :: l, S k => a :: append_at l k x
  end.
(** Analysis/MPCDAnalysis/NormalModeAutocorrelation.py l.257-267; [l] is [self._measurements[mode]]. *)
Definition nma_mode (l : list (list Qc)) (mt0 mtT : Z) (x : Qc) : result (list (list Qc)) :=
  do l <- (if Z.leb (Z.of_nat (length l)) mt0
           then if Z.eqb mt0 (Z.of_nat (length l)) then Ok (l ++ [[]]) else Err AssertionError
           else Ok l);
  do k <- py_index mt0 (length l);
  if Z.eqb mtT (Z.of_nat (length (nth k l []))) then Ok (append_at l k x) else Err AssertionError.
(** Analysis/MPCDAnalysis/NormalModeAutocorrelation.py l.254-267. *)
Fixpoint nma_modes (ls : list (list (list Qc))) (mt0 mtT : Z) (parts : list string) : result (list (list (list Qc))) :=
  match ls, parts with
  | l :: ls, p :: parts =>
    match float p with
    | None => Err ValueError
    | Some x => do l' <- nma_mode l mt0 mtT x; do ls' <- nma_modes ls mt0 mtT parts; Ok (l' :: ls')
    end
  | _, _ => Ok []
  end.
(** Analysis/MPCDAnalysis/NormalModeAutocorrelation.py l.239-267; [int] also accepts some strings that [Z_of_str] does
    not, none of which is written by the simulation. *)
Definition nma_line (starting_mt0 : nat) (s : analysis) (line : string) : result analysis :=
  match words is_ws line with
  | a :: b :: ((_ :: _) as parts) =>
    do s <- (match normalModeCount s with
             | None => Ok (Analysis (repeat [] (length parts)) (Some (length parts)))
             | Some n => if Nat.eqb (length parts) n then Ok s else Err ValueError
             end);
    match Z_of_str a, Z_of_str b with
    | Some t, Some mtT =>
      do ms <- nma_modes (measurements s) (t + Z.of_nat starting_mt0) mtT parts; Ok (Analysis ms (normalModeCount s))
    | _, _ => Err ValueError
    end
  | _ => Err ValueError
  end.
(** Analysis/MPCDAnalysis/NormalModeAutocorrelation.py l.238-267: the loop over lines. *)
Fixpoint nma_lines (starting_mt0 : nat) (s : analysis) (ls : list string) : result analysis :=
  match ls with [] => Ok s | l :: r => do s' <- nma_line starting_mt0 s l; nma_lines starting_mt0 s' r end.
(** Analysis/MPCDAnalysis/NormalModeAutocorrelation.py l.219-267; there is no [file] in Python 3. *)
Definition nma_parse (s : analysis) (file : string) : result analysis :=
  if python3 then Err NameError
  else nma_lines (match measurements s with [] => O | l :: _ => length l end) s (keep_lines file).
(** Analysis/MPCDAnalysis/NormalModeAutocorrelation.py l.56-88: the files of all run directories. *)
Fixpoint nma_files (s : analysis) (files : list string) : result analysis :=
  match files with [] => Ok s | f :: r => do s' <- nma_parse s f; nma_files s' r end.
(** Analysis/MPCDAnalysis/NormalModeAutocorrelation.py l.110-160; results that are cached are computed again. *)
Definition nma_get (s : analysis) (mode correlationTime : Z) : result ddda :=
  match normalModeCount s with
  | None => Err AssertionError
  | Some n =>
    if Z.ltb mode 0 || Z.leb (Z.of_nat n) mode then Err ValueError
    else if Z.ltb correlationTime 0 then Err ValueError
    else if Z.ltb (Z.of_nat count - 1) correlationTime then Err ValueError
    else
      match nth_error (measurements s) (Z.to_nat mode) with
      | None => Err IndexError
      | Some l => Ok (fold_left (fun stat measurement =>
          match nth_error measurement (Z.to_nat correlationTime) with Some x => ddda_add stat x | None => stat end) l ddda_new)
      end
  end.
End Py.
