(** Proofs about target specifications and run directories. *)
From Coq Require Import List ZArith String Ascii Bool Lia Arith.
From Verif Require Import QcBase PyBase StrBase FsBase ConfModel RunsModel RunsSpec.
Import ListNotations.
Close Scope Qc_scope.
Open Scope string_scope.
Open Scope nat_scope.
Open Scope list_scope.

(** ** Products *)
Definition ext {A} (acc : list (list A)) (g : list A) := flat_map (fun x => map (fun y => x ++ [y]) g) acc.
Lemma product_snoc {A} (gs : list (list A)) g : product (gs ++ [g]) = ext (product gs) g.
Proof. unfold product. rewrite fold_left_app. reflexivity. Qed.
Lemma ext_length {A} acc (g : list A) : List.length (ext acc g) = List.length acc * List.length g.
Proof.
  induction acc as [|x acc IH]; [reflexivity|]. cbn. rewrite app_length, map_length.
  unfold ext in IH. rewrite IH. lia.
Qed.
Lemma ext_nth {A} acc (g : list A) i c y : List.length g <> 0 ->
  nth_error acc (i / List.length g) = Some c -> nth_error g (i mod List.length g) = Some y ->
  nth_error (ext acc g) i = Some (c ++ [y]).
Proof.
  intros G. revert i. induction acc as [|x acc IH]; intros i C Y.
  - destruct (i / List.length g); discriminate.
  - cbn. destruct (Nat.lt_ge_cases i (List.length g)) as [L|L].
    + rewrite Nat.div_small in C by exact L. rewrite Nat.mod_small in Y by exact L.
      cbn in C. injection C as <-. rewrite nth_error_app1 by (rewrite map_length; exact L).
      rewrite nth_error_map, Y. reflexivity.
    + rewrite nth_error_app2 by (rewrite map_length; exact L). rewrite map_length.
      assert (E : i = (i - List.length g) + 1 * List.length g) by lia.
      rewrite E in C. rewrite Nat.div_add in C by exact G. rewrite Nat.add_1_r in C. cbn in C.
      rewrite E, Nat.mod_add in Y by exact G.
      apply IH; assumption.
Qed.
Lemma total_snoc {A} (gs : list (list A)) g : total (gs ++ [g]) = total gs * List.length g.
Proof. induction gs as [|h gs IH]; cbn; [lia|]. rewrite IH. lia. Qed.

Lemma product_spec {A} (gs : list (list A)) : List.length (product gs) = total gs /\
  forall i, i < total gs -> exists c, nth_error (product gs) i = Some c /\ is_combination gs i c.
Proof.
  induction gs as [|g gs (IHL & IH)] using rev_ind.
  - split; [reflexivity|]. intros i L. cbn in L. assert (i = 0) as -> by lia.
    exists []. split; [reflexivity|]. split; [reflexivity|]. intros [|j] g; discriminate.
  - rewrite product_snoc, total_snoc. split; [rewrite ext_length, IHL; reflexivity|].
    intros i L. assert (G : List.length g <> 0) by (intros Z; rewrite Z in L; lia).
    destruct (IH (i / List.length g)) as (c & C & LC & DC).
    { apply Nat.div_lt_upper_bound; [exact G|]. lia. }
    assert (LI : i mod List.length g < List.length g) by (apply Nat.mod_upper_bound; exact G).
    destruct (nth_error g (i mod List.length g)) as [y|] eqn:Y.
    2:{ apply nth_error_None in Y. lia. }
    exists (c ++ [y]). split; [apply ext_nth; assumption|]. split; [rewrite !app_length, LC; reflexivity|].
    intros j h E. destruct (Nat.lt_ge_cases j (List.length gs)) as [LJ|LJ].
    + rewrite nth_error_app1 in E by exact LJ. rewrite nth_error_app1 by (rewrite LC; exact LJ).
      rewrite (DC j h E). f_equal. f_equal.
      rewrite skipn_app. replace (S j - List.length gs) with 0 by lia. cbn [skipn].
      rewrite total_snoc. rewrite Nat.div_div; [|exact G|].
      * rewrite Nat.mul_comm. reflexivity.
      * intros Z. assert (T : total gs <> 0) by (intros Z2; rewrite Z2 in L; lia). apply T.
        rewrite <- (firstn_skipn (S j) gs). clear -Z. induction (firstn (S j) gs) as [|h r IH]; [exact Z|cbn [app total]; rewrite IH; lia].
    + assert (LJ2 : j < List.length (gs ++ [g])) by (apply nth_error_Some; congruence).
      rewrite app_length in LJ2. cbn in LJ2. assert (j = List.length gs) as -> by lia.
      rewrite nth_error_app2 in E by lia. rewrite Nat.sub_diag in E. cbn in E. injection E as <-.
      rewrite nth_error_app2 by lia. rewrite LC, Nat.sub_diag.
      rewrite (skipn_all2 (gs ++ [g])) by (rewrite app_length; cbn; lia). cbn [total]. rewrite Nat.div_1_r. symmetry. exact Y.
Qed.

(** ** Specifications *)
Lemma apply_settings_app H a b : apply_settings H (a ++ b) = do H' <- apply_settings H a; apply_settings H' b.
Proof.
  revert H. induction a as [|s a IH]; intros H; [reflexivity|]. cbn [apply_settings app].
  destruct (apply_setting H s); cbn [bind]; [apply IH|reflexivity].
Qed.
Lemma apply_parts_settings ps : forall acc,
  match apply_parts acc ps, apply_settings (sp_config acc) (flat_map pt_settings ps) with
  | Ok s, Ok H => sp_config s = H /\ sp_components s = sp_components acc ++ flat_map (fun p => some_list (pt_components p)) ps
  | Err e, Err e' => e = e'
  | _, _ => False
  end.
Proof.
  induction ps as [|p ps IH]; intros acc.
  - cbn. rewrite app_nil_r. split; reflexivity.
  - cbn [apply_parts flat_map]. rewrite apply_settings_app. unfold apply_part.
    destruct (apply_settings (sp_config acc) (pt_settings p)) as [H|e]; cbn [bind]; [|reflexivity].
    match goal with |- match apply_parts ?a ps with _ => _ end => specialize (IH a); set (a' := a) in * end.
    change H with (sp_config a'). destruct (apply_parts a' ps) as [s|e]; [|exact IH].
    destruct (apply_settings (sp_config a') _) as [H'|e]; [|exact IH]. destruct IH as (-> & ->).
    split; [reflexivity|]. unfold a'. cbn [sp_components]. destruct (pt_components p); cbn [some_list app];
      rewrite <- ?app_assoc; reflexivity.
Qed.
Lemma apply_parts_sweeps ps : forall acc s, apply_parts acc ps = Ok s ->
  largest (sp_sweeps acc :: map pt_sweeps ps) (sp_sweeps s).
Proof.
  induction ps as [|p ps IH]; intros acc s E.
  - cbn in E. injection E as <-. unfold largest. cbn. destruct (sp_sweeps acc) as [m|].
    + split; [left; reflexivity|]. intros t [E|[]]. injection E as <-. lia.
    + intros t [<-|[]]. reflexivity.
  - cbn [apply_parts] in E. unfold apply_part in E.
    destruct (apply_settings (sp_config acc) (pt_settings p)) as [H|e]; cbn [bind] in E; [|discriminate].
    apply IH in E. cbn [sp_sweeps] in E. cbn [map].
    destruct (pt_sweeps p) as [t|] eqn:T.
    + destruct (sp_sweeps acc) as [u|] eqn:U.
      * destruct (Z.ltb u t) eqn:L; [apply Z.ltb_lt in L|apply Z.ltb_ge in L]; unfold largest in *;
          (destruct (sp_sweeps s) as [m|]; [|exfalso; specialize (E _ (or_introl eq_refl)); discriminate]);
          destruct E as (I & M); (split; [cbn in I |- *; tauto|]); intros x [X|[X|X]];
          try injection X as <-; try (apply M; cbn; tauto).
        -- specialize (M t (or_introl eq_refl)). lia.
        -- specialize (M u (or_introl eq_refl)). lia.
      * unfold largest in *. destruct (sp_sweeps s) as [m|]; [|exfalso; specialize (E _ (or_introl eq_refl)); discriminate].
        destruct E as (I & M). split; [right; exact I|]. intros x [X|X]; [discriminate|apply M, X].
    + unfold largest in *. destruct (sp_sweeps s) as [m|].
      * destruct E as (I & M). split; [cbn in I |- *; tauto|]. intros x X. apply M. cbn in X |- *.
        destruct X as [X|[X|X]]; [left; exact X|discriminate|right; exact X].
      * intros x [X|[X|X]]; [apply E; left; exact X|congruence|apply E; right; exact X].
Qed.
Lemma apply_parts_describes base c s : apply_parts (mk_spec base None []) c = Ok s -> describes base c s.
Proof.
  intros E. pose proof (apply_parts_settings c (mk_spec base None [])) as P. rewrite E in P. cbn [sp_config sp_components app] in P.
  split; [|split].
  - destruct (apply_settings base _) as [H|e]; [|contradiction]. destruct P as (-> & _). reflexivity.
  - destruct (apply_settings base _) as [H|e]; [|contradiction]. apply P.
  - apply apply_parts_sweeps in E. cbn [sp_sweeps] in E. unfold largest in *. destruct (sp_sweeps s) as [m|].
    + destruct E as ([I|I] & M); [discriminate|]. split; [exact I|]. intros t T. apply M. right. exact T.
    + intros t T. apply E. right. exact T.
Qed.

Lemma mapres_forall2 {A B} (f : A -> result B) l r : mapres f l = Ok r <-> Forall2 (fun a b => f a = Ok b) l r.
Proof.
  revert r. induction l as [|a l IH]; intros r; cbn.
  - split; [intros E; injection E as <-; constructor|intros F; inversion F; reflexivity].
  - destruct (f a) as [b|e] eqn:E; cbn [bind].
    + destruct (mapres f l) as [t|e] eqn:T; cbn [bind].
      * split; [intros X; injection X as <-; constructor; [exact E|apply IH; reflexivity]|].
        intros F. inversion F; subst. rewrite E in H1. injection H1 as ->. apply IH in H3. congruence.
      * split; [discriminate|]. intros F. inversion F; subst. apply IH in H3. discriminate.
    + split; [discriminate|]. intros F. inversion F; subst. congruence.
Qed.
Lemma mapres_err {A B} (f : A -> result B) l e : mapres f l = Err e -> exists a, In a l /\ f a = Err e.
Proof.
  induction l as [|a l IH]; cbn; [discriminate|].
  destruct (f a) as [b|e'] eqn:E; cbn [bind].
  - destruct (mapres f l) as [t|e'']; cbn [bind]; [discriminate|]. intros X. injection X as ->.
    destruct (IH eq_refl) as (x & I & F). exists x. split; [right; exact I|exact F].
  - intros X. injection X as ->. exists a. split; [left; reflexivity|exact E].
Qed.
Lemma Forall2_concat {A B} (R : A -> B -> Prop) ls rs : Forall2 (Forall2 R) ls rs -> Forall2 R (concat ls) (concat rs).
Proof. induction 1; cbn; [constructor|]. apply Forall2_app; assumption. Qed.
Lemma Forall2_impl {A B} (R S : A -> B -> Prop) : (forall a b, R a b -> S a b) -> forall l r, Forall2 R l r -> Forall2 S l r.
Proof. intros I l r F. induction F; constructor; auto. Qed.

Lemma target_ok base gss specs : getTargetDataSpecifications (Some (base, gss)) = Ok specs ->
  Forall2 (describes base) (concat (map product gss)) specs.
Proof.
  cbn. destruct (mapres _ gss) as [ls|e] eqn:E; cbn [bind]; [|discriminate].
  intros X. injection X as <-. apply mapres_forall2 in E. apply Forall2_concat.
  assert (G : forall l r, Forall2 (fun gs b => mapres (apply_parts (mk_spec base None [])) (product gs) = Ok b) l r ->
    Forall2 (Forall2 (describes base)) (map product l) r).
  { induction 1; cbn; constructor; auto. apply mapres_forall2 in H.
    revert H. apply Forall2_impl. apply apply_parts_describes. }
  apply G, E.
Qed.
Lemma target_err base gss e : getTargetDataSpecifications (Some (base, gss)) = Err e ->
  exists c, In c (concat (map product gss)) /\ apply_settings base (flat_map pt_settings c) = Err e.
Proof.
  cbn. destruct (mapres _ gss) as [ls|e'] eqn:E; cbn [bind]; [discriminate|].
  intros X. injection X as ->. apply mapres_err in E. destruct E as (gs & I & E).
  apply mapres_err in E. destruct E as (c & IC & E). exists c. split.
  - apply in_concat. exists (product gs). split; [apply in_map, I|exact IC].
  - pose proof (apply_parts_settings c (mk_spec base None [])) as P. rewrite E in P. cbn [sp_config] in P.
    destruct (apply_settings base _); [contradiction|]. congruence.
Qed.

(** ** Run directories *)
Lemma name_config : name_ok "config.txt".
Proof. repeat split; discriminate. Qed.
Lemma app_nonempty a b : b <> "" -> (a ++ b)%string <> "".
Proof. destruct a; cbn; [trivial|discriminate]. Qed.
Lemma numbered_nonempty base x : numberedPath base x <> "".
Proof. unfold numberedPath. apply app_nonempty. discriminate. Qed.
Lemma removelast_snoc {A} (l : list A) x : removelast (l ++ [x]) = l.
Proof. apply removelast_last. Qed.


Lemma create_step cwd F s text : wf_fs F -> s <> "" -> exists_ cwd F s = false ->
  match mkdir cwd F s with
  | Err e => e = OSError /\ look F (removelast (resolve cwd s)) <> Some Dir
  | Ok F1 => exists F2, write cwd F1 (s ++ "/config.txt") text = Ok F2 /\ created F F2 (resolve cwd s) text /\
             look F (removelast (resolve cwd s)) = Some Dir
  end.
Proof.
  intros W NE X. unfold exists_ in X. unfold mkdir.
  set (p := resolve cwd s) in *. destruct (look F p) as [e|] eqn:L; [discriminate|].
  assert (P : p <> []) by (intros ->; discriminate L).
  destruct (look F (removelast p)) as [[|c]|] eqn:LP; [|split; [reflexivity|discriminate]|split; [reflexivity|discriminate]].
  unfold write. change (s ++ "/config.txt")%string with (s ++ String slash "config.txt")%string.
  rewrite resolve_child by (try exact NE; apply name_config). fold p.
  rewrite removelast_snoc.
  assert (Q : p ++ ["config.txt"] <> []) by (intros E; apply app_eq_nil in E; destruct E; discriminate).
  assert (N : p ++ ["config.txt"] <> p).
  { intros E. rewrite <- (app_nil_r p) in E at 2. apply app_inv_head in E. discriminate. }
  assert (LC : look F (p ++ ["config.txt"]) = None).
  { destruct (look F (p ++ ["config.txt"])) eqn:E; [|reflexivity].
    assert (D : look F (removelast (p ++ ["config.txt"])) = Some Dir) by (apply W; congruence).
    rewrite removelast_snoc in D. congruence. }
  rewrite !look_dset by exact P. rewrite (path_eqb_neq _ _ N), LC, path_eqb_refl.
  eexists. split; [reflexivity|].
  assert (K : forall q, look (dset path_eqb (dset path_eqb F p Dir) (p ++ ["config.txt"]) (File text)) q
     = if path_eqb q (p ++ ["config.txt"]) then Some (File text) else if path_eqb q p then Some Dir else look F q).
  { intros q. rewrite look_dset by exact Q. rewrite look_dset by exact P. reflexivity. }
  split; [|reflexivity]. split; [exact L|]. split; [|split; [|split; [|split]]].
  - rewrite K, path_eqb_neq, path_eqb_refl by (intros E; apply N; congruence). reflexivity.
  - rewrite K, path_eqb_refl. reflexivity.
  - intros q LQ. rewrite K. rewrite path_eqb_neq by congruence. rewrite path_eqb_neq by congruence. reflexivity.
  - intros q N1 N2. rewrite K, !path_eqb_neq by assumption. reflexivity.
  - intros q NQ LQ. rewrite K in LQ. rewrite K.
    destruct (path_eqb q (p ++ ["config.txt"])) eqn:E1.
    { apply path_eqb_spec in E1. subst q. rewrite removelast_snoc, path_eqb_refl.
      rewrite path_eqb_neq by (intros E; apply N; congruence). reflexivity. }
    destruct (path_eqb q p) eqn:E2.
    { apply path_eqb_spec in E2. subst q.
      rewrite path_eqb_neq.
      2:{ intros E. rewrite E in LP. congruence. }
      rewrite path_eqb_neq by (intros E; rewrite E in LP; congruence). exact LP. }
    specialize (W q NQ LQ).
    rewrite path_eqb_neq by (intros E; rewrite E in W; congruence).
    rewrite path_eqb_neq by (intros E; rewrite E in W; congruence). exact W.
Qed.

Lemma pick_spec cwd base text k : forall F x F' res, wf_fs F -> pick_rundir cwd F base text x k = (F', res) ->
  match res with
  | Ok (Some p) => exists y, x <= y < x + k /\ p = numberedPath base y /\
      (forall z, x <= z < y -> exists_ cwd F (numberedPath base z) = true) /\
      created F F' (resolve cwd p) text
  | Ok None => F' = F /\ forall z, x <= z < x + k -> exists_ cwd F (numberedPath base z) = true
  | Err e => F' = F /\ exists y, x <= y < x + k /\ look F (removelast (resolve cwd (numberedPath base y))) <> Some Dir
  end.
Proof.
  induction k as [|k IH]; intros F x F' res W E; cbn [pick_rundir] in E.
  - injection E as <- <-. split; [reflexivity|]. intros z L. lia.
  - destruct (exists_ cwd F (numberedPath base x)) eqn:X.
    + apply IH in E; [|exact W]. destruct res as [[p|]|e].
      * destruct E as (y & L & P & B & C). exists y. split; [lia|]. split; [exact P|]. split; [|exact C].
        intros z LZ. destruct (Nat.eq_dec z x) as [->|N]; [exact X|]. apply B. lia.
      * destruct E as (-> & B). split; [reflexivity|]. intros z LZ.
        destruct (Nat.eq_dec z x) as [->|N]; [exact X|]. apply B. lia.
      * destruct E as (-> & y & L & B). split; [reflexivity|]. exists y. split; [lia|exact B].
    + pose proof (create_step cwd F (numberedPath base x) text W (numbered_nonempty base x) X) as C.
      destruct (mkdir cwd F (numberedPath base x)) as [F1|e].
      * destruct C as (F2 & WR & CR & PD).
        change (numberedPath base x ++ "/config.txt")%string with (String.append (numberedPath base x) "/config.txt") in E.
        rewrite WR in E. injection E as <- <-.
        exists x. split; [lia|]. split; [reflexivity|]. split; [intros z LZ; lia|exact CR].
      * injection E as <- <-. split; [reflexivity|]. exists x. split; [lia|]. apply C.
Qed.

Lemma zeros_no c n : Ascii.eqb "0" c = false -> has_char c (zeros n) = false.
Proof. intros E. induction n as [|n IH]; [reflexivity|]. cbn [zeros has_char]. rewrite E, IH. reflexivity. Qed.
Lemma padded_no w x : has_char slash (padded w x) = false.
Proof.
  unfold padded. rewrite has_char_app, zeros_no by reflexivity. apply str_of_Z_no; reflexivity.
Qed.
Lemma numbered_resolve cwd base name x : base <> "" -> has_char slash name = false ->
  resolve cwd (numberedPath (base ++ "/" ++ name) x) = resolve cwd base ++ [(name ++ "---" ++ padded numberOfDigits x)%string].
Proof.
  intros NE NS. unfold numberedPath.
  replace ((base ++ "/" ++ name) ++ "---" ++ padded numberOfDigits x)%string
    with (base ++ String slash (name ++ "---" ++ padded numberOfDigits x))%string.
  2:{ rewrite <- !str_app_assoc. reflexivity. }
  apply resolve_child; [exact NE|].
  assert (L : 3 <= String.length (name ++ "---" ++ padded numberOfDigits x)).
  { clear. induction name as [|a n IH]; cbn; [lia|]. cbn in IH. lia. }
  split; [|split; [|split]].
  - intros E. rewrite E in L. cbn in L. lia.
  - intros E. rewrite E in L. cbn in L. lia.
  - intros E. rewrite E in L. cbn in L. lia.
  - rewrite !has_char_app, NS, padded_no. reflexivity.
Qed.

Lemma createRundir_spec cwd F jobdir prefix comps text F' res : wf_fs F ->
  createRundir cwd F jobdir prefix comps text = (F', res) ->
  match res with
  | Ok (Some p) => exists name y, join_components prefix comps = Ok (Some name) /\ y < Nat.pow 10 numberOfDigits /\
      p = numberedPath (jobdir ++ "/jobs" ++ "/" ++ name) y /\
      (forall z, z < y -> exists_ cwd F (numberedPath (jobdir ++ "/jobs" ++ "/" ++ name) z) = true) /\
      created F F' (resolve cwd p) text
  | _ => F' = F
  end.
Proof.
  intros W E. unfold createRundir in E.
  destruct (isdir cwd F (jobdir ++ "/jobs")); cbn [negb] in E; [|injection E as <- <-; reflexivity].
  destruct (join_components prefix comps) as [[name|]|e]; [|injection E as <- <-; reflexivity|injection E as <- <-; reflexivity].
  apply pick_spec in E; [|exact W]. rewrite <- str_app_assoc in E.
  destruct res as [[p|]|e]; [|apply E|apply E].
  destruct E as (y & L & P & B & C). exists name, y. split; [reflexivity|]. split; [lia|]. split; [exact P|].
  split; [|exact C]. intros z LZ. apply B. lia.
Qed.

Lemma no_slash_join prefix comps name : (forall c, In c (prefix :: comps) -> has_char slash c = false) ->
  join_components (Some prefix) comps = Ok (Some name) -> has_char slash name = false.
Proof.
  revert prefix. induction comps as [|c comps IH]; intros prefix N E; cbn in E.
  - injection E as <-. apply N. left. reflexivity.
  - apply IH in E; [exact E|]. intros d [<-|HI]; [|apply N; right; right; exact HI].
    rewrite has_char_app, (N c) by (right; left; reflexivity).
    destruct (String.eqb prefix ""); rewrite ?has_char_app, (N prefix) by (left; reflexivity); reflexivity.
Qed.
Lemma join_some prefix comps : exists name, join_components (Some prefix) comps = Ok (Some name).
Proof.
  revert prefix. induction comps as [|c comps IH]; intros prefix; cbn; [exists prefix; reflexivity|]. apply IH.
Qed.
Lemma join_text prefix comps : (forall c, In c comps -> c <> "") ->
  join_components (Some prefix) comps =
    Ok (Some (String.concat "---" ((if String.eqb prefix "" then [] else [prefix]) ++ comps))).
Proof.
  revert prefix. induction comps as [|c comps IH]; intros prefix N; cbn [join_components].
  - destruct (String.eqb prefix "") eqn:E; [apply String.eqb_eq in E; subst; reflexivity|]. reflexivity.
  - rewrite IH by (intros d HI; apply N; right; exact HI).
    assert (C : c <> "") by (apply N; left; reflexivity).
    destruct (String.eqb prefix "") eqn:E.
    + apply String.eqb_eq in E. subst prefix. cbn [append].
      destruct (String.eqb c "") eqn:E2; [apply String.eqb_eq in E2; congruence|]. reflexivity.
    + destruct (String.eqb ((prefix ++ "---") ++ c) "") eqn:E2.
      { apply String.eqb_eq in E2. destruct prefix; discriminate. }
      do 2 f_equal. cbn [app]. destruct comps as [|d comps].
      * cbn. rewrite <- str_app_assoc. reflexivity.
      * change (String.concat "---" (((prefix ++ "---") ++ c)%string :: d :: comps))
          with (((prefix ++ "---") ++ c) ++ "---" ++ String.concat "---" (d :: comps))%string.
        change (String.concat "---" (prefix :: c :: d :: comps))
          with (prefix ++ "---" ++ (c ++ "---" ++ String.concat "---" (d :: comps)))%string.
        rewrite <- !str_app_assoc. reflexivity.
Qed.

Lemma createRundir_ok cwd F jobdir prefix comps text name y : wf_fs F ->
  isdir cwd F (jobdir ++ "/jobs") = true -> (forall c, In c (prefix :: comps) -> has_char slash c = false) ->
  join_components (Some prefix) comps = Ok (Some name) -> y < Nat.pow 10 numberOfDigits ->
  exists_ cwd F (numberedPath (jobdir ++ "/jobs" ++ "/" ++ name) y) = false ->
  exists F' p, createRundir cwd F jobdir (Some prefix) comps text = (F', Ok (Some p)).
Proof.
  intros W D NS J L X.
  destruct (createRundir cwd F jobdir (Some prefix) comps text) as (F', res) eqn:E.
  pose proof E as E0. unfold createRundir in E. rewrite D in E. cbn [negb] in E. rewrite J in E.
  apply pick_spec in E; [|exact W]. rewrite <- str_app_assoc in E.
  destruct res as [[p|]|e].
  - exists F', p. reflexivity.
  - destruct E as (_ & B). rewrite B in X by lia. discriminate.
  - destruct E as (_ & z & LZ & B). exfalso. apply B.
    assert (NE : (jobdir ++ "/jobs")%string <> "") by (apply app_nonempty; discriminate).
    replace (jobdir ++ "/jobs" ++ "/" ++ name)%string with ((jobdir ++ "/jobs") ++ "/" ++ name)%string
      by (rewrite <- str_app_assoc; reflexivity).
    rewrite numbered_resolve; [|exact NE|eapply no_slash_join; eassumption].
    rewrite removelast_snoc. unfold isdir in D. destruct (look F _) as [[|]|]; try discriminate. reflexivity.
Qed.

(** Requests in sequence. *)
Lemma createRundirs_spec cwd jobdir prefix reqs : forall F F' ps, wf_fs F ->
  createRundirs cwd F jobdir prefix reqs = (F', ps) ->
  wf_fs F' /\ (forall q, look F q <> None -> look F' q = look F q) /\ List.length ps = List.length reqs /\
  NoDup (flat_map (fun o => match o with Some p => [resolve cwd p] | None => [] end) ps) /\
  forall i p, nth_error ps i = Some (Some p) ->
    look F (resolve cwd p) = None /\
    exists r, nth_error reqs i = Some r /\ look F' (resolve cwd p ++ ["config.txt"]) = Some (File (snd r)).
Proof.
  induction reqs as [|(cs, text) reqs IH]; intros F F' ps W E; cbn [createRundirs] in E.
  - injection E as <- <-. split; [exact W|]. split; [reflexivity|]. split; [reflexivity|]. split; [constructor|].
    intros [|i] p; discriminate.
  - destruct (createRundir cwd F jobdir prefix cs text) as (F1, res) eqn:C.
    destruct (createRundirs cwd F1 jobdir prefix reqs) as (F2, l) eqn:R. injection E as <- <-.
    apply createRundir_spec in C; [|exact W].
    assert (K : wf_fs F1 /\ forall q, look F q <> None -> look F1 q = look F q).
    { destruct res as [[p|]|e]; [|subst F1; split; [exact W|reflexivity]|subst F1; split; [exact W|reflexivity]].
      destruct C as (name & y & _ & _ & _ & _ & C). split; apply C. }
    destruct K as (W1 & K). destruct (IH F1 F2 l W1 R) as (W2 & K2 & LL & ND & P).
    split; [exact W2|]. split.
    { intros q Q. rewrite K2; [apply K, Q|rewrite K; exact Q]. }
    split; [cbn; f_equal; exact LL|].
    assert (N0 : forall i p, nth_error l i = Some (Some p) -> look F (resolve cwd p) = None).
    { intros i p HI. destruct (P i p HI) as (A & _). destruct (look F (resolve cwd p)) eqn:E2; [|reflexivity].
      rewrite K in A by congruence. congruence. }
    split.
    + destruct res as [[p|]|e]; cbn; try exact ND. constructor; [|exact ND].
      intros HI. apply in_flat_map in HI. destruct HI as ([q|] & HQ & HE); [|destruct HE].
      destruct HE as [HE|[]]. apply In_nth_error in HQ. destruct HQ as (i & HQ).
      destruct (P i q HQ) as (A & _). destruct C as (name & y & _ & _ & _ & _ & (_ & C & _)). congruence.
    + intros [|i] p HI; cbn in HI.
      * destruct res as [[p'|]|e]; try discriminate. injection HI as ->.
        destruct C as (name & y & _ & _ & _ & _ & (C1 & _ & C2 & _)). split; [exact C1|].
        exists (cs, text). split; [reflexivity|]. cbn [snd]. rewrite K2; [exact C2|congruence].
      * split; [eapply N0; exact HI|]. destruct (P i p HI) as (_ & r & A & B). exists r. split; [exact A|exact B].
Qed.
