(** Proofs about the predictions for dumbbells and the script that plots bond components. *)
From Coq Require Import String.
From Verif Require Import PyBase StrBase InitModel InitSpec DumModel DumSpec.
From Coq Require Import Reals ZArith List Bool Sorted Lra Psatz Permutation Lia.
Import ListNotations.
Open Scope string_scope.
Open Scope list_scope.
Open Scope R_scope.

(** ** The ratio *)
Lemma real_root c x y z : roots_of (-1) 0 c [x; y; z] -> snd x = 0 -> fst x * fst x * fst x - fst x * fst x + c = 0.
Proof.
  intros [x' [y' [z' [E [A [B C]]]]]] I. injection E as <- <- <-. destruct x as [a b], y as [p q], z as [r s]. unfold cadd, cmul in *. cbn in *. subst b.
  injection A as A1 A2. injection B as B1 B2. injection C as C1 C2.
  assert (s = - q) by lra. subst s. assert (r = 1 - a - p) by lra. subst r.
  clear A1 A2 C2 B2. assert (B3 : a * (1 - a) + (p * (1 - a - p) + q * q) = 0) by (rewrite <- B1; ring). assert (C3 : a * (p * (1 - a - p) + q * q) = - c) by (rewrite <- C1; ring).
  assert (D : a * (a * (1 - a) + (p * (1 - a - p) + q * q)) = 0) by (rewrite B3; ring). rewrite Rmult_plus_distr_l, C3 in D. lra.
Qed.

(** ** The curves *)
Definition flat (t : table) : list (R * point) := flat_map (fun row => map (pair (fst row)) (snd row)) t.
Fixpoint get (t : table) (w : R) : list point :=
  match t with [] => [] | (k, ps) :: r => if Req_EM_T k w then ps else get r w end.
Lemma flat_cons k ps t : flat ((k, ps) :: t) = map (pair k) ps ++ flat t.
Proof. reflexivity. Qed.
Lemma flat_none t w : ~ In w (map fst t) -> filter (is_Wi fst w) (flat t) = [].
Proof.
  induction t as [|[k ps] t IH]; [reflexivity|]. rewrite flat_cons. cbn [map fst In]. intros N. rewrite filter_app, IH by tauto. rewrite app_nil_r.
  induction ps as [|p ps IHp]; [reflexivity|]. cbn. unfold is_Wi at 1. cbn. destruct (Req_EM_T k w); [exfalso; apply N; left; assumption|apply IHp].
Qed.
Lemma filter_row k w (ps : list point) : filter (is_Wi fst w) (map (pair k) ps) = if Req_EM_T k w then map (pair k) ps else [].
Proof.
  induction ps as [|p ps IH]; cbn; [destruct (Req_EM_T k w); reflexivity|]. unfold is_Wi at 1. cbn. rewrite IH. destruct (Req_EM_T k w); reflexivity.
Qed.
Lemma flat_get t w : NoDup (map fst t) -> filter (is_Wi fst w) (flat t) = map (pair w) (get t w).
Proof.
  induction t as [|[k ps] t IH]; [reflexivity|]. rewrite flat_cons. cbn [map fst get]. intros N. inversion N as [|? ? A B]; subst. rewrite filter_app, filter_row. destruct (Req_EM_T k w) as [->|D].
  - rewrite flat_none by exact A. apply app_nil_r.
  - apply IH, B.
Qed.
Lemma append_keys Wi p t w : In w (map fst (append_point Wi p t)) <-> w = Wi \/ In w (map fst t).
Proof.
  induction t as [|[k ps] t IH]; cbn; [intuition auto|]. destruct (Req_EM_T k Wi) as [->|D]; cbn; [intuition auto|]. rewrite IH. intuition auto.
Qed.
Lemma append_nodup Wi p t : NoDup (map fst t) -> NoDup (map fst (append_point Wi p t)).
Proof.
  induction t as [|[k ps] t IH]; cbn; intros N; [constructor; [intros []|constructor]|]. inversion N as [|? ? A B]; subst.
  destruct (Req_EM_T k Wi) as [->|D]; cbn; [exact N|]. constructor; [|apply IH, B]. rewrite append_keys. intros [E|E]; [apply D; symmetry; congruence|contradiction].
Qed.
Lemma append_get Wi p t w : get (append_point Wi p t) w = get t w ++ (if Req_EM_T Wi w then [p] else []).
Proof.
  induction t as [|[k ps] t IH]; cbn; [destruct (Req_EM_T Wi w); reflexivity|]. destruct (Req_EM_T k Wi) as [->|D]; cbn.
  - destruct (Req_EM_T Wi w); [reflexivity|]. rewrite app_nil_r. reflexivity.
  - destruct (Req_EM_T k w) as [->|E]; [|apply IH]. destruct (Req_EM_T Wi w) as [F|F]; [exfalso; apply D; symmetry; exact F|]. rewrite app_nil_r. reflexivity.
Qed.
Lemma insert_perm p l : Permutation (insert_row p l) (p :: l).
Proof.
  induction l as [|q l IH]; cbn; [apply Permutation_refl|]. destruct (Rlt_dec (fst p) (fst q)); [apply Permutation_refl|].
  apply Permutation_trans with (q :: p :: l); [apply perm_skip, IH|apply perm_swap].
Qed.
Lemma sort_perm l : Permutation (sort_rows l) l.
Proof. induction l as [|p l IH]; cbn; [constructor|]. apply Permutation_trans with (p :: sort_rows l); [apply insert_perm|apply perm_skip, IH]. Qed.
Lemma insert_sorted p l : StronglySorted (fun a b => fst a < fst b) l -> ~ In (fst p) (map fst l) -> StronglySorted (fun a b : R * list point => fst a < fst b) (insert_row p l).
Proof.
  induction l as [|q l IH]; cbn; intros H N; [constructor; constructor|]. inversion H as [|? ? A B]; subst. destruct (Rlt_dec (fst p) (fst q)) as [L|L].
  - constructor; [exact H|]. constructor; [exact L|]. eapply Forall_impl; [|exact B]. cbn. intros r Hr. lra.
  - constructor; [apply IH; tauto|]. apply Forall_forall. intros r I. apply (Permutation_in _ (insert_perm p l)) in I. destruct I as [<-|I].
    + destruct (Rtotal_order (fst p) (fst q)) as [C|[C|C]]; [contradiction|exfalso; apply N; left; symmetry; exact C|exact C].
    + rewrite Forall_forall in B. apply B, I.
Qed.
Lemma sort_sorted l : NoDup (map fst l) -> StronglySorted (fun a b : R * list point => fst a < fst b) (sort_rows l).
Proof.
  induction l as [|p l IH]; cbn; intros N; [constructor|]. inversion N as [|? ? A B]; subst. apply insert_sorted; [apply IH, B|].
  intros I. apply A. apply (Permutation_in _ (Permutation_map fst (sort_perm l))), I.
Qed.
Lemma get_in t w ps : NoDup (map fst t) -> In (w, ps) t -> get t w = ps.
Proof.
  induction t as [|[k qs] t IH]; cbn; [tauto|]. intros N [E|I]; inversion N as [|? ? A B]; subst.
  - injection E as -> ->. destruct (Req_EM_T w w); [reflexivity|contradiction].
  - destruct (Req_EM_T k w) as [->|D]; [exfalso; apply A; apply (in_map fst) in I; exact I|apply IH; assumption].
Qed.
Lemma get_out t w : ~ In w (map fst t) -> get t w = [].
Proof. induction t as [|[k qs] t IH]; cbn; [reflexivity|]. intros N. destruct (Req_EM_T k w) as [->|D]; [exfalso; tauto|apply IH; tauto]. Qed.
Lemma get_perm t u w : NoDup (map fst t) -> Permutation t u -> get u w = get t w.
Proof.
  intros N P. assert (N2 : NoDup (map fst u)) by (eapply Permutation_NoDup; [apply Permutation_map, P|exact N]).
  destruct (In_dec Req_EM_T w (map fst t)) as [I|I].
  - apply in_map_iff in I. destruct I as [[k ps] [E I]]. cbn in E. subst k. rewrite (get_in t w ps N I). apply get_in; [exact N2|eapply Permutation_in; eassumption].
  - rewrite !get_out; [reflexivity|exact I|]. intros J. apply I. eapply Permutation_in; [apply Permutation_sym, Permutation_map, P|exact J].
Qed.
Lemma flat_sorted t : StronglySorted (fun a b : R * list point => fst a < fst b) t -> StronglySorted (fun a b : R * point => fst a <= fst b) (flat t).
Proof.
  induction t as [|[k ps] t IH]; intros H; [constructor|]. rewrite flat_cons. inversion H as [|? ? A B]; subst.
  assert (F : Forall (fun b => k <= fst b) (flat t)).
  { apply Forall_forall. intros [w p] I. unfold flat in I. apply in_flat_map in I. destruct I as [row [I J]]. apply in_map_iff in J. destruct J as [q [E J]]. injection E as <- <-.
    rewrite Forall_forall in B. specialize (B row I). cbn in *. lra. }
  clear H B. induction ps as [|p ps IHp]; cbn; [apply IH, A|]. constructor; [exact IHp|]. apply Forall_app. split; [|exact F].
  apply Forall_forall. intros q I. apply in_map_iff in I. destruct I as [r [<- _]]. cbn. lra.
Qed.
Lemma sorted_filter {A} (le : A -> A -> Prop) f l : StronglySorted le l -> StronglySorted le (filter f l).
Proof.
  induction l as [|a l IH]; cbn; intros H; [constructor|]. inversion H as [|? ? P Q]; subst. destruct (f a); [|apply IH, P]. constructor; [apply IH, P|].
  apply Forall_forall. intros b I. apply filter_In in I. rewrite Forall_forall in Q. apply Q, I.
Qed.
Lemma sorted_map {A B} (g : A -> B) (le : B -> B -> Prop) l : StronglySorted (fun a b => le (g a) (g b)) l -> StronglySorted le (map g l).
Proof.
  induction l as [|a l IH]; cbn; intros H; [constructor|]. inversion H as [|? ? P Q]; subst. constructor; [apply IH, P|]. apply Forall_map, Q.
Qed.

(** *** The dictionary of curves *)
Section Str.
Variable str : R -> string.
Variable str_int : Z -> string.
Definition has (c : curves) (n : string) : Prop := In n (map fst c).
Lemma has_existsb c n : existsb (fun q : string * list (R * R) => String.eqb (fst q) n) c = true <-> has c n.
Proof.
  unfold has. rewrite existsb_exists, in_map_iff. split; intros [q [A B]]; exists q; [apply String.eqb_eq in B; auto|rewrite String.eqb_eq; auto].
Qed.
Lemma add_line_has n x c m : has (add_line n x c) m <-> has c m.
Proof. unfold has. induction c as [|[k l] c IH]; cbn; [tauto|]. destruct (String.eqb k n); cbn; [tauto|]. rewrite IH. tauto. Qed.
Lemma add_line_curve n x c m : has c n -> curve (add_line n x c) m = curve c m ++ (if String.eqb n m then [x] else []).
Proof.
  unfold has. induction c as [|[k l] c IH]; cbn; [tauto|]. intros H. destruct (String.eqb_spec k n) as [->|N]; cbn.
  - destruct (String.eqb n m); [reflexivity|]. rewrite app_nil_r. reflexivity.
  - destruct (String.eqb_spec k m) as [->|M]; [destruct (String.eqb_spec n m) as [->|Q]; [congruence|rewrite app_nil_r; reflexivity]|]. apply IH. destruct H; [congruence|assumption].
Qed.
Lemma curve_out c n : ~ has c n -> curve c n = [].
Proof. unfold has. induction c as [|[k l] c IH]; cbn; [reflexivity|]. intros H. destruct (String.eqb_spec k n); [exfalso; tauto|apply IH; tauto]. Qed.
Lemma curve_app c d n : curve (c ++ d) n = if existsb (fun q : string * list (R * R) => String.eqb (fst q) n) c then curve c n else curve d n.
Proof. induction c as [|[k l] c IH]; cbn; [reflexivity|]. destruct (String.eqb k n); [reflexivity|exact IH]. Qed.
Lemma curve_new c a b n : curve (c ++ [(a, []); (b, [])]) n = curve c n.
Proof.
  rewrite curve_app. destruct (existsb _ c) eqn:E; [reflexivity|]. rewrite (curve_out c n); [cbn; destruct (String.eqb a n), (String.eqb b n); reflexivity|].
  intros H. apply has_existsb in H. congruence.
Qed.
Lemma prefix_inj p a b : (p ++ a)%string = (p ++ b)%string <-> a = b.
Proof. split; [|intros ->; reflexivity]. induction p as [|c p IH]; cbn; [auto|]. intros H. injection H as H. apply IH, H. Qed.
Lemma eqb_prefix p a b : String.eqb (p ++ a)%string (p ++ b)%string = String.eqb a b.
Proof.
  destruct (String.eqb_spec a b) as [->|N]; [apply String.eqb_refl|]. apply String.eqb_neq. rewrite prefix_inj. exact N.
Qed.
(** The curves hold the points added so far. *)
Definition paired (c : curves) : Prop := forall n, has c ("<x^2>" ++ n)%string -> has c ("<y^2>" ++ n)%string.
Definition named (p : point) : option string := match curve_name str str_int p with Ok n => Some n | Err _ => None end.
Definition is_named (n : string) (p : point) : bool := match named p with Some m => String.eqb m n | None => false end.
Lemma add_point_ok Wi p c : paired c -> named p <> None -> exists c', add_point str str_int Wi p c = Ok c' /\ paired c' /\
  forall n, curve c' ("<x^2>" ++ n)%string = curve c ("<x^2>" ++ n)%string ++ (if is_named n p then [(Wi, p_xx p)] else []) /\
            curve c' ("<y^2>" ++ n)%string = curve c ("<y^2>" ++ n)%string ++ (if is_named n p then [(Wi, p_yy p)] else []).
Proof.
  intros P N. unfold add_point, is_named, named in *. destruct (curve_name str str_int p) as [name|]; [|congruence]. cbn [bind].
  set (X := ("<x^2>" ++ name)%string). set (Y := ("<y^2>" ++ name)%string).
  set (c1 := if existsb (fun q : string * list (R * R) => String.eqb (fst q) X) c then c else c ++ [(X, []); (Y, [])]).
  assert (HX : has c1 X /\ has c1 Y).
  { unfold c1. destruct (existsb _ c) eqn:E; [apply has_existsb in E; split; [exact E|apply P, E]|]. unfold has. rewrite map_app, !in_app_iff. cbn. tauto. }
  assert (P1 : paired c1).
  { unfold c1. destruct (existsb _ c) eqn:E; [exact P|]. intros n H. unfold has in H |- *. rewrite map_app, in_app_iff in *. cbn [map fst In] in *. destruct H as [H|[H|[H|[]]]].
    - left. apply P, H.
    - right; right; left. unfold X in H. apply (prefix_inj "<x^2>" name n) in H. unfold Y. rewrite H. reflexivity.
    - discriminate H. }
  assert (C1 : forall n, curve c1 n = curve c n) by (intros n; unfold c1; destruct (existsb _ c); [reflexivity|apply curve_new]).
  eexists. split; [reflexivity|]. split.
  - intros n H. rewrite !add_line_has in *. apply P1, H.
  - intros n. rewrite !add_line_curve by (rewrite ?add_line_has; apply HX). rewrite !C1. unfold X, Y. rewrite !eqb_prefix.
    assert (D : forall a b, String.eqb ("<x^2>" ++ a)%string ("<y^2>" ++ b)%string = false) by (intros; apply String.eqb_neq; discriminate).
    assert (D2 : forall a b, String.eqb ("<y^2>" ++ a)%string ("<x^2>" ++ b)%string = false) by (intros; apply String.eqb_neq; discriminate).
    rewrite D, D2, !app_nil_r. split; reflexivity.
Qed.
Lemma add_points_ok Wi ps c : paired c -> (forall p, In p ps -> named p <> None) -> exists c', add_points str str_int Wi ps c = Ok c' /\ paired c' /\
  forall n, curve c' ("<x^2>" ++ n)%string = curve c ("<x^2>" ++ n)%string ++ map (fun q => (fst q, p_xx (snd q))) (filter (fun q => is_named n (snd q)) (map (pair Wi) ps)) /\
            curve c' ("<y^2>" ++ n)%string = curve c ("<y^2>" ++ n)%string ++ map (fun q => (fst q, p_yy (snd q))) (filter (fun q => is_named n (snd q)) (map (pair Wi) ps)).
Proof.
  revert c. induction ps as [|p ps IH]; intros c P N; cbn [add_points].
  - exists c. split; [reflexivity|]. split; [exact P|]. intros n. cbn. rewrite !app_nil_r. split; reflexivity.
  - destruct (add_point_ok Wi p c P (N p (or_introl eq_refl))) as [c1 [E [P1 H1]]]. rewrite E. cbn [bind].
    destruct (IH c1 P1 (fun q I => N q (or_intror I))) as [c2 [E2 [P2 H2]]]. exists c2. split; [exact E2|]. split; [exact P2|]. intros n. destruct (H2 n) as [A B]. destruct (H1 n) as [A1 B1].
    rewrite A, B, A1, B1. cbn. destruct (is_named n p); cbn; rewrite <- ?app_assoc; split; reflexivity.
Qed.
Lemma add_rows_ok t c : paired c -> (forall q, In q (flat t) -> named (snd q) <> None) -> exists c', add_rows str str_int t c = Ok c' /\ paired c' /\
  forall n, curve c' ("<x^2>" ++ n)%string = curve c ("<x^2>" ++ n)%string ++ map (fun q => (fst q, p_xx (snd q))) (filter (fun q => is_named n (snd q)) (flat t)) /\
            curve c' ("<y^2>" ++ n)%string = curve c ("<y^2>" ++ n)%string ++ map (fun q => (fst q, p_yy (snd q))) (filter (fun q => is_named n (snd q)) (flat t)).
Proof.
  revert c. induction t as [|[w ps] t IH]; intros c P N; cbn [add_rows].
  - exists c. split; [reflexivity|]. split; [exact P|]. intros n. cbn. rewrite !app_nil_r. split; reflexivity.
  - rewrite flat_cons in *. destruct (add_points_ok w ps c P) as [c1 [E [P1 H1]]]. { intros p I. apply (N (w, p)). apply in_or_app. left. apply in_map, I. }
    rewrite E. cbn [bind]. destruct (IH c1 P1) as [c2 [E2 [P2 H2]]]. { intros q I. apply N. apply in_or_app. right. exact I. }
    exists c2. split; [exact E2|]. split; [exact P2|]. intros n. destruct (H2 n) as [A B]. destruct (H1 n) as [A1 B1].
    rewrite A, B, A1, B1. rewrite filter_app, !map_app, <- !app_assoc. split; reflexivity.
Qed.

(** *** The runs *)
Definition point_of (m : measurement) : point :=
  Point (m_xx m) (m_yy m) (m_l m) (m_positions m) (Some match m_steps m with None => (true, 0%Z) | Some n => (false, n) end).
Lemma name_of m : curve_name str str_int (point_of m) = Ok (title str str_int m).
Proof. unfold curve_name, title, point_of. cbn. destruct (m_steps m) as [n|]; cbn; rewrite <- !str_app_assoc; reflexivity. Qed.
Definition meas (q : R * point) : measurement :=
  Measurement (fst q) (p_xx (snd q)) (p_yy (snd q)) (p_l (snd q)) (p_initial (snd q)) match p_streaming (snd q) with Some (false, n) => Some n | _ => None end.
Lemma meas_of m : meas (m_Wi m, point_of m) = m.
Proof. destruct m as [? ? ? ? ? [n|]]; reflexivity. Qed.
Definition appended (t : table) (m : measurement) : table := append_point (m_Wi m) (point_of m) t.
Lemma read_one r m t : measured r m -> readRegularData r t = Ok (appended t m).
Proof.
  intros [xx [yy [l [[A [B C]] ->]]]]. unfold readRegularData, read_locals. rewrite A, B, C. cbn [bind fst snd]. cbn [v_l v_xx v_yy v_Wi v_initial v_streaming]. unfold appended, point_of. cbn [m_Wi m_xx m_yy m_l m_positions m_steps].
  set (f := match r_revision r with Some s => _ | None => _ end). fold bad_revision. fold f. f_equal. replace 3.0 with 3 by lra.
  replace (xx * f * (3 / (l * l))) with (3 / (l * l) * f * xx) by ring. replace (yy * f * (3 / (l * l))) with (3 / (l * l) * f * yy) by ring.
  destruct (r_streaming r) as [[]|]; reflexivity.
Qed.
Lemma read_runs_app a b t : read_runs (a ++ b) t = (do t' <- read_runs a t; read_runs b t').
Proof.
  revert t. induction a as [|x a IH]; intros t; [reflexivity|]. cbn [app read_runs].
  destruct (match x with RegularRun r => _ | QuickRun q => _ | NoRun => _ end); cbn [bind]; [apply IH|reflexivity].
Qed.
Lemma read_measured rs ms t : Forall2 measured rs ms -> read_runs (map RegularRun rs) t = Ok (fold_left appended ms t).
Proof.
  intros H. revert t. induction H as [|r m rs ms A _ IH]; intros t; [reflexivity|]. cbn [map read_runs fold_left]. rewrite (read_one r m t A). apply IH.
Qed.
Lemma fold_nodup ms t : NoDup (map fst t) -> NoDup (map fst (fold_left appended ms t)).
Proof. revert t. induction ms as [|m ms IH]; intros t N; [exact N|]. cbn. apply IH, append_nodup, N. Qed.
Lemma fold_get ms t w : get (fold_left appended ms t) w = get t w ++ map point_of (filter (is_Wi m_Wi w) ms).
Proof.
  revert t. induction ms as [|m ms IH]; intros t; cbn [fold_left filter map]; [rewrite app_nil_r; reflexivity|]. rewrite IH. unfold appended at 1. rewrite append_get, <- app_assoc. f_equal.
  unfold is_Wi at 2. destruct (Req_EM_T (m_Wi m) w); reflexivity.
Qed.
Lemma fold_keys ms t w : In w (map fst (fold_left appended ms t)) <-> In w (map m_Wi ms) \/ In w (map fst t).
Proof.
  revert t. induction ms as [|m ms IH]; intros t; cbn; [tauto|]. rewrite IH. unfold appended. rewrite append_keys. intuition auto.
Qed.
Lemma filter_map_comm {A B} (g : A -> B) f l : filter f (map g l) = map g (filter (fun a => f (g a)) l).
Proof. induction l as [|a l IH]; cbn; [reflexivity|]. rewrite IH. destruct (f (g a)); reflexivity. Qed.
Lemma filter_comm {A} (f g : A -> bool) l : filter f (filter g l) = filter g (filter f l).
Proof. induction l as [|a l IH]; cbn; [reflexivity|]. destruct (g a) eqn:G, (f a) eqn:F; cbn; rewrite ?G, ?F, IH; reflexivity. Qed.
Lemma filter_fst w (l : list (R * point)) n : filter (is_Wi m_Wi w) (map meas (filter (fun q => is_named n (snd q)) l)) = map meas (filter (fun q => is_named n (snd q)) (filter (is_Wi fst w) l)).
Proof. rewrite filter_map_comm, filter_comm. reflexivity. Qed.
Lemma is_named_of n m : is_named n (point_of m) = String.eqb (title str str_int m) n.
Proof. unfold is_named, named. rewrite name_of. reflexivity. Qed.
Section Rows.
Variables (ms : list measurement).
Let t := fold_left appended ms [].
Let rows := sort_rows t.
Lemma rows_nodup : NoDup (map fst rows).
Proof. eapply Permutation_NoDup; [apply Permutation_sym, Permutation_map, sort_perm|]. apply fold_nodup. constructor. Qed.
Lemma rows_filter w : filter (is_Wi fst w) (flat rows) = map (fun m => (m_Wi m, point_of m)) (filter (is_Wi m_Wi w) ms).
Proof.
  rewrite (flat_get rows w rows_nodup). unfold rows. rewrite (get_perm t); [|apply fold_nodup; constructor|apply Permutation_sym, sort_perm]. unfold t. rewrite fold_get. cbn [get app]. rewrite map_map.
  apply map_ext_in. intros m I. apply filter_In in I. destruct I as [_ I]. unfold is_Wi in I. destruct (Req_EM_T (m_Wi m) w) as [<-|]; [reflexivity|discriminate].
Qed.
Lemma rows_in q : In q (flat rows) -> exists m, In m ms /\ q = (m_Wi m, point_of m).
Proof.
  intros H. assert (J : In q (filter (is_Wi fst (fst q)) (flat rows))) by (apply filter_In; split; [exact H|]; unfold is_Wi; destruct (Req_EM_T (fst q) (fst q)); [reflexivity|contradiction]).
  rewrite rows_filter in J. apply in_map_iff in J. destruct J as [m [<- I]]. exists m. apply filter_In in I. tauto.
Qed.
Definition series (n : string) : list measurement := map meas (filter (fun q => is_named n (snd q)) (flat rows)).
Lemma series_order n : in_order (series n) (filter (fun m => String.eqb (title str str_int m) n) ms).
Proof.
  split.
  - unfold series. apply sorted_map. apply sorted_filter. cbn. apply flat_sorted, sort_sorted, fold_nodup. constructor.
  - intros w. unfold series. rewrite filter_fst, rows_filter, filter_map_comm, map_map. cbn [snd]. rewrite filter_comm.
    rewrite (map_ext _ (fun m => m)) by apply meas_of. rewrite map_id. f_equal. apply filter_ext. intros m. apply is_named_of.
Qed.
Lemma series_curves : exists c, add_rows str str_int rows [] = Ok c /\ forall n,
  curve c ("<x^2>" ++ n)%string = map (fun m => (m_Wi m, m_xx m)) (series n) /\ curve c ("<y^2>" ++ n)%string = map (fun m => (m_Wi m, m_yy m)) (series n).
Proof.
  destruct (add_rows_ok rows []) as [c [E [_ H]]].
  - intros n [].
  - intros q I. destruct (rows_in q I) as [m [_ ->]]. cbn [snd]. unfold named. rewrite name_of. discriminate.
  - exists c. split; [exact E|]. intros n. destruct (H n) as [A B]. unfold series. rewrite A, B, !map_map. split; reflexivity.
Qed.
(** The smallest and the largest Weissenberg number. *)
Lemma rows_first first rest : rows = first :: rest -> In (fst first) (map m_Wi ms) /\ (forall m, In m ms -> fst first <= m_Wi m).
Proof.
  intros E. assert (S : StronglySorted (fun a b : R * list point => fst a < fst b) rows) by (apply sort_sorted, fold_nodup; constructor).
  assert (K : forall w, In w (map fst rows) <-> In w (map m_Wi ms)).
  { intros w. unfold rows. split; intros I.
    - apply (Permutation_in _ (Permutation_map fst (sort_perm t))) in I. unfold t in I. apply fold_keys in I. destruct I as [I|[]]. exact I.
    - apply (Permutation_in _ (Permutation_sym (Permutation_map fst (sort_perm t)))). unfold t. apply fold_keys. left. exact I. }
  split; [apply K; rewrite E; left; reflexivity|]. intros m I. assert (J : In (m_Wi m) (map fst rows)) by (apply K, in_map, I). rewrite E in J, S. inversion S as [|? ? _ F]; subst.
  destruct J as [<-|J]; [lra|]. apply in_map_iff in J. destruct J as [q [<- J]]. rewrite Forall_forall in F. specialize (F q J). lra.
Qed.
Lemma last_in {A} (l : list A) d : l <> [] -> In (last l d) l.
Proof. induction l as [|a [|b l] IH]; intros N; [congruence|left; reflexivity|]. right. apply IH. discriminate. Qed.
Lemma last_sorted (l : table) d q : StronglySorted (fun a b : R * list point => fst a < fst b) l -> In q l -> fst q <= fst (last l d).
Proof.
  induction l as [|a [|b l] IH]; intros S I; [destruct I|destruct I as [<-|[]]; cbn; lra|]. inversion S as [|? ? S2 F]; subst. change (last (a :: b :: l) d) with (last (b :: l) d). destruct I as [<-|I]; [|apply IH; assumption].
  rewrite Forall_forall in F. specialize (F (last (b :: l) d) (last_in (b :: l) d ltac:(discriminate))). lra.
Qed.
Lemma rows_last first : ms <> [] -> In (fst (last rows first)) (map m_Wi ms) /\ (forall m, In m ms -> m_Wi m <= fst (last rows first)).
Proof.
  intros NE. assert (S : StronglySorted (fun a b : R * list point => fst a < fst b) rows) by (apply sort_sorted, fold_nodup; constructor).
  assert (K : forall w, In w (map fst rows) <-> In w (map m_Wi ms)).
  { intros w. unfold rows. split; intros I.
    - apply (Permutation_in _ (Permutation_map fst (sort_perm t))) in I. unfold t in I. apply fold_keys in I. destruct I as [I|[]]. exact I.
    - apply (Permutation_in _ (Permutation_sym (Permutation_map fst (sort_perm t)))). unfold t. apply fold_keys. left. exact I. }
  assert (NR : rows <> []). { destruct ms as [|m ms']; [congruence|]. intros E. specialize (K (m_Wi m)). rewrite E in K. apply K. left. reflexivity. }
  split; [apply K, in_map, last_in, NR|]. intros m I. assert (J : In (m_Wi m) (map fst rows)) by (apply K, in_map, I). apply in_map_iff in J. destruct J as [q [<- J]]. apply last_sorted; assumption.
Qed.
End Rows.
(** *** Quick runs *)
Lemma add_point_bad Wi p c : named p = None -> add_point str str_int Wi p c = Err KeyError.
Proof. unfold named, add_point, curve_name. destruct (p_streaming p) as [[]|]; [discriminate|reflexivity]. Qed.
Lemma add_point_or Wi p c : (exists c', add_point str str_int Wi p c = Ok c') \/ add_point str str_int Wi p c = Err KeyError.
Proof. unfold add_point, curve_name. destruct (p_streaming p) as [[]|]; cbn [bind]; eauto. Qed.
Lemma add_points_or Wi ps c : (exists c', add_points str str_int Wi ps c = Ok c') \/ add_points str str_int Wi ps c = Err KeyError.
Proof. revert c. induction ps as [|p ps IH]; intros c; cbn [add_points]; [eauto|]. destruct (add_point_or Wi p c) as [[c' ->]| ->]; cbn [bind]; auto. Qed.
Lemma add_points_bad Wi ps c p : In p ps -> named p = None -> add_points str str_int Wi ps c = Err KeyError.
Proof.
  revert c. induction ps as [|q ps IH]; intros c I N; [destruct I|]. cbn [add_points]. destruct I as [->|I]; [rewrite (add_point_bad Wi p c N); reflexivity|].
  destruct (add_point_or Wi q c) as [[c' ->]| ->]; cbn [bind]; [apply IH; assumption|reflexivity].
Qed.
Lemma add_rows_bad t c q : In q (flat t) -> named (snd q) = None -> add_rows str str_int t c = Err KeyError.
Proof.
  revert c. induction t as [|[w ps] t IH]; intros c I N; [destruct I|]. rewrite flat_cons in I. cbn [add_rows]. apply in_app_iff in I. destruct I as [I|I].
  - apply in_map_iff in I. destruct I as [p [<- I]]. rewrite (add_points_bad w ps c p I N). reflexivity.
  - destruct (add_points_or w ps c) as [[c' ->]| ->]; cbn [bind]; [apply IH; assumption|reflexivity].
Qed.
Lemma append_in Wi p t q : In q (flat (append_point Wi p t)) <-> q = (Wi, p) \/ In q (flat t).
Proof.
  induction t as [|[k ps] t IH]; cbn [append_point].
  - cbn. intuition auto.
  - destruct (Req_EM_T k Wi) as [->|D]; rewrite !flat_cons, ?map_app, !in_app_iff; [cbn; intuition auto|]. rewrite IH. tauto.
Qed.
Lemma sort_in t q : In q (flat (sort_rows t)) <-> In q (flat t).
Proof.
  unfold flat. rewrite !in_flat_map. split; intros [r [A B]]; exists r; (split; [|exact B]); [apply (Permutation_in _ (sort_perm t)), A|apply (Permutation_in _ (Permutation_sym (sort_perm t))), A].
Qed.
Definition fine (d : rundir) : Prop := match d with RegularRun r => exists m, measured r m | QuickRun q => quick_run q | NoRun => False end.
Lemma read_fine runs t : (forall d, In d runs -> fine d) -> exists t', read_runs runs t = Ok t' /\ (forall q, In q (flat t) -> In q (flat t')) /\
  ((exists q, In (QuickRun q) runs) -> exists q, In q (flat t') /\ p_streaming (snd q) = None).
Proof.
  revert t. induction runs as [|d runs IH]; intros t F; cbn [read_runs].
  - exists t. split; [reflexivity|]. split; [auto|]. intros [q []].
  - assert (A : exists t1, match d with RegularRun r => readRegularData r t | QuickRun q => readQuickAndDirtyGPUData q t | NoRun => Err PyException end = Ok t1 /\
      (forall q, In q (flat t) -> In q (flat t1)) /\ ((exists q, d = QuickRun q) -> exists q, In q (flat t1) /\ p_streaming (snd q) = None)).
    { specialize (F d (or_introl eq_refl)). destruct d as [r|q|]; cbn in F.
      - destruct F as [m F]. eexists. split; [apply read_one, F|]. split; [intros q I; apply append_in; right; exact I|]. intros [q D]. discriminate D.
      - destruct F as [A [B C]]. unfold readQuickAndDirtyGPUData. destruct (q_rate q) as [n|]; [|congruence]. destruct (q_xx q) as [|x xs] eqn:X; [congruence|]. destruct (q_yy q) as [|y ys]; [congruence|]. unfold mean_of. cbn [length Nat.eqb bind].
        eexists. split; [reflexivity|]. split; [intros p I; apply append_in; right; exact I|]. intros _. eexists. split; [apply append_in; left; reflexivity|reflexivity].
      - destruct F. }
    destruct A as [t1 [E [K Q]]]. rewrite E. cbn [bind]. destruct (IH t1 (fun d I => F d (or_intror I))) as [t2 [E2 [K2 Q2]]]. exists t2. split; [exact E2|]. split; [auto|].
    intros [q [->|I]]; [destruct (Q (ex_intro _ q eq_refl)) as [p [P1 P2]]; exists p; split; [apply K2, P1|exact P2]|apply Q2; exists q; exact I].
Qed.
End Str.

(** ** The theory *)
Lemma ratio_at_zero mu : 1 <= mu -> multiplier_ratio 0 mu -> mu = 1.
Proof. unfold multiplier_ratio. intros A B. replace (0 * 0 / 6) with 0 in B by lra. assert (mu * mu * (mu - 1) = 0) by lra. assert (0 < mu * mu) by (apply Rmult_lt_0_compat; lra). apply Rmult_integral in H. lra. Qed.
Lemma root_exists Wi : { mu | 1 <= mu /\ multiplier_ratio Wi mu }.
Proof.
  destruct (IVT_cor (fun x => x * x * x - x * x - Wi * Wi / 6) 1 (1 + Wi * Wi)) as [z [A B]].
  - reg.
  - nra.
  - assert (0 <= Wi * Wi) by apply Rle_0_sqr. set (w := Wi * Wi) in *. clearbody w. nra.
  - exists z. split; [lra|]. unfold multiplier_ratio. lra.
Qed.
