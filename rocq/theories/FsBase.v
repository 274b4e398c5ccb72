(** A small file system, and the path functions of Python's [os.path].
    Simplifications: no symbolic links, no permissions, and no other process; a file
    system is what it contains at the moment. *)
From Coq Require Import List ZArith String Ascii Bool Lia.
From Verif Require Export PyBase DictBase StrBase.
Import ListNotations.
Close Scope string_scope.

(** A path of the file system, from the root. *)
Notation path := (list string).
Inductive entry := Dir | File (content : string).
Notation fs := (list (path * entry)).

Fixpoint path_eqb (a b : path) : bool :=
  match a, b with
  | [], [] => true
  | x :: a, y :: b => String.eqb x y && path_eqb a b
  | _, _ => false
  end.
Lemma path_eqb_spec a b : path_eqb a b = true <-> a = b.
Proof.
  revert b. induction a as [|x a IH]; intros [|y b]; cbn; split; intros H; try discriminate; try reflexivity.
  - apply andb_true_iff in H. destruct H as (H1 & H2). apply String.eqb_eq in H1. apply IH in H2. congruence.
  - injection H as -> ->. rewrite String.eqb_refl. apply IH. reflexivity.
Qed.

(** What is found at a path; the root is always there. *)
Definition look (F : fs) (p : path) : option entry :=
  match p with [] => Some Dir | _ => dget path_eqb F p end.

Definition slash : ascii := "/"%char.
(** [posixpath.normpath], component by component; the parents are in [acc], the
    innermost first. *)
Fixpoint norm (acc : list string) (comps : list string) : path :=
  match comps with
  | [] => rev acc
  | c :: r =>
    if String.eqb c "" || String.eqb c "." then norm acc r
    else if String.eqb c ".." then norm (tl acc) r
    else norm (c :: acc) r
  end.
Definition is_abs (s : string) : bool :=
  match s with String a _ => Ascii.eqb a slash | EmptyString => false end.
(** The path that a string denotes in a process with working directory [cwd]. *)
Definition resolve (cwd : path) (s : string) : path :=
  norm (if is_abs s then [] else rev cwd) (split slash s).
(** [os.path.abspath] (for paths that do not begin with exactly two slashes). *)
Definition text_of (p : path) : string := String slash (join slash p).
Definition abspath (cwd : path) (s : string) : string := text_of (resolve cwd s).

Definition exists_ (cwd : path) (F : fs) (s : string) : bool :=
  match look F (resolve cwd s) with None => false | Some _ => true end.
Definition isdir (cwd : path) (F : fs) (s : string) : bool :=
  match look F (resolve cwd s) with Some Dir => true | _ => false end.
Definition isfile (cwd : path) (F : fs) (s : string) : bool :=
  match look F (resolve cwd s) with Some (File _) => true | _ => false end.
(** [os.mkdir] *)
Definition mkdir (cwd : path) (F : fs) (s : string) : result fs :=
  let p := resolve cwd s in
  match look F p with
  | Some _ => Err OSError
  | None => match look F (removelast p) with
            | Some Dir => Ok (dset path_eqb F p Dir)
            | _ => Err OSError
            end
  end.
(** [open(s, "w")] and writing the content *)
Definition write (cwd : path) (F : fs) (s : string) (content : string) : result fs :=
  let p := resolve cwd s in
  match look F p with
  | Some Dir => Err OSError
  | _ => match look F (removelast p) with
         | Some Dir => Ok (dset path_eqb F p (File content))
         | _ => Err OSError
         end
  end.
(** [open(s).read()] *)
Definition read (cwd : path) (F : fs) (s : string) : result string :=
  match look F (resolve cwd s) with Some (File c) => Ok c | _ => Err OSError end.

(** [s.startswith(p)] *)
Fixpoint starts (p s : string) : bool :=
  match p, s with
  | EmptyString, _ => true
  | String a p', String b s' => Ascii.eqb a b && starts p' s'
  | String _ _, EmptyString => false
  end.
Fixpoint str_rev (s acc : string) : string :=
  match s with EmptyString => acc | String a r => str_rev r (String a acc) end.
(** [s.endswith(p)] *)
Definition ends (p s : string) : bool := starts (str_rev p "") (str_rev s "").
(** [s.replace(old, new)] for a nonempty [old]: [skip] characters of the occurrence
    found last are still to be skipped. *)
Fixpoint replace_from (old new s : string) (skip : nat) : string :=
  match s with
  | EmptyString => EmptyString
  | String a r =>
    match skip with
    | S k => replace_from old new r k
    | O => if starts old s then (new ++ replace_from old new r (String.length old - 1))%string
           else String a (replace_from old new r 0)
    end
  end.
Definition replace (old new s : string) : string := replace_from old new s 0.

(** ** Facts *)
Section Facts.
Local Open Scope string_scope.
Lemma split_app_gen c a b : split c (a ++ String c b) = (split c a ++ split c b)%list.
Proof.
  induction a as [|x a IH].
  - rewrite split_cons by reflexivity. reflexivity.
  - cbn [append]. cbn [split]. destruct (Ascii.eqb x c) eqn:E.
    + rewrite IH. reflexivity.
    + rewrite IH. pose proof (split_nonempty c a) as N. destruct (split c a) as [|h t]; [congruence|].
      reflexivity.
Qed.
Lemma norm_app acc a b : norm acc (a ++ b)%list = norm (rev (norm acc a)) b.
Proof.
  revert acc. induction a as [|c a IH]; intros acc; cbn.
  - rewrite rev_involutive. reflexivity.
  - destruct (String.eqb c "" || String.eqb c "."); [apply IH|]. destruct (String.eqb c ".."); apply IH.
Qed.
(** A component that is an ordinary name. *)
Definition name_ok (n : string) : Prop :=
  n <> "" /\ n <> "." /\ n <> ".." /\ has_char slash n = false.
Lemma norm_name acc n r : name_ok n -> norm acc (n :: r) = norm (n :: acc) r.
Proof.
  intros (A & B & C & _). cbn.
  destruct (String.eqb n "") eqn:E1; [apply String.eqb_eq in E1; congruence|].
  destruct (String.eqb n ".") eqn:E2; [apply String.eqb_eq in E2; congruence|].
  destruct (String.eqb n "..") eqn:E3; [apply String.eqb_eq in E3; congruence|]. reflexivity.
Qed.
Lemma is_abs_app s t : s <> "" -> is_abs (s ++ t) = is_abs s.
Proof. destruct s; [congruence|reflexivity]. Qed.
Lemma resolve_child cwd s n : s <> "" -> name_ok n -> resolve cwd (s ++ String slash n) = (resolve cwd s ++ [n])%list.
Proof.
  intros NE N. unfold resolve. rewrite is_abs_app by exact NE. rewrite split_app_gen, norm_app.
  rewrite (split_none slash n) by apply N. rewrite norm_name by exact N. cbn. rewrite rev_involutive. reflexivity.
Qed.
Definition path_ok (p : path) : Prop := forall n, In n p -> name_ok n.
Lemma norm_ok acc comps : path_ok acc -> (forall c, In c comps -> has_char slash c = false) -> path_ok (norm acc comps).
Proof.
  revert acc. induction comps as [|c comps IH]; intros acc A C; cbn.
  - intros n HI. apply A. apply in_rev, HI.
  - destruct (String.eqb c "") eqn:E1; [apply IH; [exact A|intros; apply C; right; assumption]|].
    destruct (String.eqb c ".") eqn:E2; [apply IH; [exact A|intros; apply C; right; assumption]|].
    destruct (String.eqb c "..") eqn:E3.
    + apply IH; [|intros; apply C; right; assumption]. intros n HI. apply A. destruct acc; [destruct HI|right; exact HI].
    + apply IH; [|intros; apply C; right; assumption].
      apply String.eqb_neq in E1, E2, E3. intros n [<-|HI]; [|apply A, HI].
      repeat split; try assumption. apply C. left. reflexivity.
Qed.
Lemma split_no c s x : In x (split c s) -> has_char c x = false.
Proof.
  revert x. induction s as [|y s IH]; cbn [split]; intros x.
  - intros [<-|[]]. reflexivity.
  - destruct (Ascii.eqb y c) eqn:E.
    + intros [<-|HI]; [reflexivity|apply IH, HI].
    + destruct (split c s) as [|h t] eqn:S; [intros [<-|[]]; cbn; rewrite E; reflexivity|].
      intros [<-|HI]; [|apply IH; right; exact HI]. cbn. rewrite E. apply IH. left. reflexivity.
Qed.
Lemma resolve_ok cwd s : path_ok cwd -> path_ok (resolve cwd s).
Proof.
  intros C. apply norm_ok; [|intros c; apply split_no].
  destruct (is_abs s); [intros n []|intros n HI; apply C, in_rev, HI].
Qed.
Lemma norm_names acc p : path_ok p -> norm acc p = (rev acc ++ p)%list.
Proof.
  revert acc. induction p as [|n p IH]; intros acc P; [cbn; rewrite app_nil_r; reflexivity|].
  rewrite norm_name by (apply P; left; reflexivity). rewrite IH by (intros m HI; apply P; right; exact HI).
  cbn. rewrite <- app_assoc. reflexivity.
Qed.
Lemma resolve_text cwd p : path_ok p -> resolve cwd (text_of p) = p.
Proof.
  intros P. unfold resolve, text_of. cbn [is_abs]. change (Ascii.eqb slash slash) with true. cbn iota.
  cbn [split]. change (Ascii.eqb slash slash) with true. cbn iota.
  change (norm [] ("" :: split slash (join slash p)) = p)%list.
  change (norm [] (split slash (join slash p)) = p).
  destruct p as [|n p]; [reflexivity|].
  rewrite split_join; [|discriminate|intros x HI; apply P, HI].
  rewrite norm_names by exact P. reflexivity.
Qed.
Lemma abspath_fix cwd s : path_ok cwd -> resolve cwd (abspath cwd s) = resolve cwd s.
Proof. intros C. apply resolve_text, resolve_ok, C. Qed.
Lemma text_of_nonempty p : text_of p <> "".
Proof. discriminate. Qed.
End Facts.

(** Looking after an update. *)
Lemma look_dset F p e q : p <> [] -> look (dset path_eqb F p e) q = if path_eqb q p then Some e else look F q.
Proof.
  intros N. unfold look. destruct q as [|x q]; [destruct p; [congruence|reflexivity]|].
  apply dget_dset. exact path_eqb_spec.
Qed.
Lemma path_eqb_refl p : path_eqb p p = true.
Proof. apply path_eqb_spec. reflexivity. Qed.
Lemma path_eqb_neq p q : p <> q -> path_eqb p q = false.
Proof. intros N. destruct (path_eqb p q) eqn:E; [apply path_eqb_spec in E; congruence|reflexivity]. Qed.

(** Everything lies in a directory. *)
Definition wf_fs (F : fs) : Prop :=
  forall p, p <> [] -> look F p <> None -> look F (removelast p) = Some Dir.
