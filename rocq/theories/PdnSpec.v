(** What lines of a file of points say. *)
From Coq Require Import String Ascii List ZArith QArith Qcanon Bool.
From Verif Require Import QcBase.
Import ListNotations.
Open Scope string_scope.
Open Scope list_scope.

(** White space: tab to carriage return, file separator to space. *)
Definition white (c : ascii) : Prop := In (nat_of_ascii c) [9; 10; 11; 12; 13; 28; 29; 30; 31; 32]%nat.
Fixpoint every (P : ascii -> Prop) (s : string) : Prop := match s with "" => True | String c r => P c /\ every P r end.
(** Nothing but white space. *)
Definition blank (s : string) : Prop := every white s.
(** A word: not empty, and without white space. *)
Definition word (s : string) : Prop := s <> "" /\ every (fun c => ~ white c) s.
(** Whether a line is a comment, and which point it gives if it is not. *)
Inductive says (float : string -> option Qc) : string -> option (Qc * Qc) -> Prop :=
| says_comment : forall s, says float (String "#" s) None
| says_point : forall b1 w1 b2 w2 b3 x y,
    blank b1 -> word w1 -> blank b2 -> b2 <> "" -> word w2 -> blank b3 -> (forall s, w1 <> String "#" s) ->
    float w1 = Some x -> float w2 = Some y ->
    says float (append b1 (append w1 (append b2 (append w2 b3)))) (Some (x, y)).
(** Points of a file. *)
Fixpoint points (l : list (option (Qc * Qc))) : list (Qc * Qc) :=
  match l with [] => [] | Some p :: r => p :: points r | None :: r => points r end.
(** Curves of points: those that are neither at zero nor beyond 1000. *)
Inductive shown : list (Qc * Qc) -> list (Qc * Qc) -> Prop :=
| shown_nil : shown [] []
| shown_in : forall x y l k, (x <> 0 -> x <= qz 1000 -> shown l k -> shown ((x, y) :: l) ((x, y) :: k))%Qc
| shown_out : forall x y l k, (x = 0 \/ qz 1000 < x -> shown l k -> shown ((x, y) :: l) k)%Qc.
