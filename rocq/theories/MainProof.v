(** Proofs about the simulation program. *)
From Coq Require Import List ZArith Bool String Ascii Lia.
From Verif Require Import MainModel MainSpec.
Import ListNotations.
Open Scope list_scope.

Lemma check_ok rundir names c : only_input names ->
  check_entries rundir names c = inl (if existsb (String.eqb "config.txt") names then path_append rundir "config.txt" else c).
Proof.
  revert c. induction names as [|n r IH]; intros c h; [reflexivity|].
  cbn [check_entries existsb].
  assert (hr: only_input r) by (intros m hm; apply h; right; exact hm).
  destruct (String.eqb_spec n "config.txt") as [->|ne].
  - rewrite IH by exact hr. rewrite String.eqb_refl. cbn [orb]. destruct (existsb _ r); reflexivity.
  - destruct (h n (or_introl eq_refl)) as [e|e]; [contradiction|]. subst n. cbn [String.eqb Ascii.eqb Bool.eqb].
    rewrite IH by exact hr. reflexivity.
Qed.
Lemma check_inv rundir names c c' : check_entries rundir names c = inl c' -> only_input names.
Proof.
  revert c. induction names as [|n r IH]; intros c h m hm; [destruct hm|].
  cbn [check_entries] in h.
  destruct (String.eqb_spec n "config.txt").
  - destruct hm as [<-|hm]; [left; assumption|]. eapply IH; eassumption.
  - destruct (String.eqb_spec n "input"); [|discriminate].
    destruct hm as [<-|hm]; [right; assumption|]. eapply IH; eassumption.
Qed.
Lemma check_fail rundir names c e : check_entries rundir names c = inr e -> e = ProjectException.
Proof.
  revert c. induction names as [|n r IH]; intros c h; [discriminate|].
  cbn [check_entries] in h. destruct (String.eqb n "config.txt"); [eapply IH; eassumption|].
  destruct (String.eqb n "input"); [eapply IH; eassumption|]. congruence.
Qed.

Lemma handle_spec f l :
  handle_all f l = if ((if terminateProgram f then 1 else 0) + terminations l <=? 1)%nat
                   then Some (Flags (terminateProgram f || negb (terminations l =? 0)%nat)
                                    (earlySave f || existsb (fun s => match s with USR1 => true | _ => false end) l))
                   else None.
Proof.
  revert f. induction l as [|s r IH]; intros [t e].
  - cbn. destruct t, e; reflexivity.
  - destruct s; cbn [handle_all signalHandler terminateProgram earlySave].
    + rewrite IH. cbn [terminateProgram earlySave]. unfold terminations. cbn [filter is_termination existsb]. reflexivity.
    + destruct t.
      * unfold terminations. cbn [filter is_termination List.length]. reflexivity.
      * rewrite IH. cbn [terminateProgram earlySave]. unfold terminations. cbn [filter is_termination existsb List.length].
        destruct (List.length (filter is_termination r)); reflexivity.
    + destruct t.
      * unfold terminations. cbn [filter is_termination List.length]. reflexivity.
      * rewrite IH. cbn [terminateProgram earlySave]. unfold terminations. cbn [filter is_termination existsb List.length].
        destruct (List.length (filter is_termination r)); reflexivity.
    + rewrite IH. cbn [terminateProgram earlySave]. unfold terminations. cbn [filter is_termination existsb].
      destruct e; reflexivity.
Qed.
Lemma terminations_app l m : terminations (l ++ m) = (terminations l + terminations m)%nat.
Proof. unfold terminations. rewrite filter_app, app_length. reflexivity. Qed.
Lemma received_app l m : received (l ++ m) = received l ++ received m.
Proof. unfold received. apply flat_map_app. Qed.
Lemma received_one t : received [t] = signals t.
Proof. unfold received. cbn. apply app_nil_r. Qed.

(** The loop, if nothing fatal happens. *)
Lemma loop_fine maxRuntime rundir last ticks before :
  terminations (received before) = 0%nat ->
  Forall fine ticks -> (terminations (received (before ++ ticks) ++ last) <= 1)%nat ->
  exists n e, (n <= List.length ticks)%nat /\
    sweep_loop maxRuntime rundir ticks last (Flags false false) = (flat_map (iteration rundir) (firstn n ticks), e) /\
    (forall i t, (i < n)%nat -> nth_error ticks i = Some t -> ~ stops maxRuntime (before ++ firstn i ticks) t) /\
    match nth_error ticks n with
    | Some t => stops maxRuntime (before ++ firstn n ticks) t /\ (e = TimeLimit \/ e = Terminated)
    | None => e = Completed
    end.
Proof.
  revert before. induction ticks as [|t r IH]; intros before h0 hf hs.
  - exists 0%nat, Completed. cbn [List.length]. split; [lia|]. cbn [sweep_loop].
    rewrite handle_spec. cbn [terminateProgram earlySave].
    rewrite app_nil_r, terminations_app in hs.
    replace (_ <=? 1)%nat with true by (symmetry; apply Nat.leb_le; lia).
    split; [reflexivity|]. split; [intros; lia|reflexivity].
  - inversion hf as [|? ? hft hfr]; subst.
    assert (ht: (terminations (signals t) <= 1)%nat).
    { rewrite !received_app, !terminations_app in hs.
      change (received (t :: r)) with (signals t ++ received r) in hs. rewrite terminations_app in hs. lia. }
    cbn [sweep_loop]. rewrite handle_spec. cbn [terminateProgram earlySave orb].
    replace (_ <=? 1)%nat with true by (symmetry; apply Nat.leb_le; lia).
    assert (hst: stops maxRuntime before t <-> (maxRuntime <> 0 /\ maxRuntime < elapsed t)%Z \/ terminations (signals t) <> 0%nat).
    { unfold stops. rewrite received_app, received_one, terminations_app, h0. reflexivity. }
    destruct (negb (maxRuntime =? 0)%Z && (maxRuntime <? elapsed t)%Z) eqn:eT.
    { exists 0%nat, TimeLimit. split; [lia|]. split; [reflexivity|]. split; [intros; lia|].
      cbn [nth_error firstn]. rewrite app_nil_r. split; [|left; reflexivity]. apply hst. left.
      apply andb_true_iff in eT. destruct eT as [e1 e2]. apply negb_true_iff, Z.eqb_neq in e1. apply Z.ltb_lt in e2. split; assumption. }
    cbn [terminateProgram].
    destruct (terminations (signals t) =? 0)%nat eqn:eM; cbn [negb].
    2:{ exists 0%nat, Terminated. split; [lia|]. split; [reflexivity|]. split; [intros; lia|].
        cbn [nth_error firstn]. rewrite app_nil_r. split; [|right; reflexivity]. apply hst. right. apply Nat.eqb_neq; exact eM. }
    apply Nat.eqb_eq in eM.
    destruct hft as [hsw hsv]. rewrite hsw. cbn [earlySave].
    destruct (IH (before ++ [t])) as (n & e & hn & hl & hns & hlast).
    { rewrite received_app, received_one, terminations_app. lia. }
    { exact hfr. }
    { rewrite <- app_assoc. exact hs. }
    exists (Datatypes.S n), e. split; [cbn [List.length]; lia|]. split.
    + cbn [firstn flat_map]. rewrite hl.
      assert (hi: iteration rundir t = fst (if existsb (fun s => match s with USR1 => true | _ => false end) (signals t)
        then early_save rundir t else ([], None)) ++ [Swept; Measured]).
      { unfold iteration, early_save. destruct (existsb _ (signals t)); [|reflexivity]. destruct hsv as [hsv|hsv]; rewrite hsv; reflexivity. }
      rewrite hi. destruct (existsb _ (signals t)); [|reflexivity].
      unfold early_save. destruct hsv as [hsv|hsv]; rewrite hsv; reflexivity.
    + split.
      * intros i t' hi hnth. destruct i as [|i].
        -- cbn in hnth. injection hnth as <-. cbn [firstn]. rewrite app_nil_r. rewrite hst. intros [[a b]|a]; [|contradiction].
           apply andb_false_iff in eT. destruct eT as [e1|e1]; [apply negb_false_iff, Z.eqb_eq in e1|apply Z.ltb_ge in e1]; lia.
        -- cbn [nth_error] in hnth. cbn [firstn]. specialize (hns i t' ltac:(lia) hnth). rewrite <- app_assoc in hns. exact hns.
      * cbn [nth_error firstn]. rewrite <- app_assoc in hlast. exact hlast.
Qed.

(** The loop never saves finally, and measures after each sweep. *)
Lemma loop_actions maxRuntime rundir last ticks f actions e :
  sweep_loop maxRuntime rundir ticks last f = (actions, e) ->
  (forall d, ~ In (SavedFinally d) actions) /\
  (forall d, In (SavedEarly d) actions -> exists t, In t ticks /\ d = (rundir ++ "/EarlySave_" ++ time_name t)%string).
Proof.
  revert f actions e. induction ticks as [|t r IH]; intros f actions e h; cbn [sweep_loop] in h.
  - injection h as <- _. split; intros d hd; destruct hd.
  - destruct (handle_all f (signals t)) as [f'|]; [|injection h as <- _; split; intros d hd; destruct hd].
    destruct (_ && _); [injection h as <- _; split; intros d hd; destruct hd|].
    destruct (terminateProgram f'); [injection h as <- _; split; intros d hd; destruct hd|].
    assert (hs: forall saved thrown, (if earlySave f' then early_save rundir t else ([], None)) = (saved, thrown) ->
      (forall d, ~ In (SavedFinally d) saved) /\ (forall d, In (SavedEarly d) saved -> d = (rundir ++ "/EarlySave_" ++ time_name t)%string)).
    { intros saved thrown hq. unfold early_save in hq.
      destruct (earlySave f'); [destruct (save_throws t) as [[]|]|]; injection hq as <- _; split; intros d hd; cbn in hd;
        try contradiction; destruct hd as [hd|[]]; [discriminate|injection hd as hd; symmetry; exact hd]. }
    destruct (if earlySave f' then early_save rundir t else ([], None)) as [saved thrown] eqn:eq.
    destruct (hs saved thrown eq_refl) as [hs1 hs2].
    destruct thrown; [injection h as <- _; split; [exact hs1|intros d hd; exists t; split; [left; reflexivity|apply hs2; exact hd]]|].
    destruct (sweep_throws t); [injection h as <- _; split; [exact hs1|intros d hd; exists t; split; [left; reflexivity|apply hs2; exact hd]]|].
    destruct (sweep_loop maxRuntime rundir r last _) as [actions' e'] eqn:el.
    injection h as <- _. destruct (IH _ _ _ el) as [i1 i2]. split; intros d hd; apply in_app_iff in hd.
    + destruct hd as [hd|hd]; [exact (hs1 _ hd)|]. cbn in hd. destruct hd as [hd|[hd|hd]]; try discriminate. exact (i1 _ hd).
    + destruct hd as [hd|hd]; [exists t; split; [left; reflexivity|apply hs2; exact hd]|].
      cbn in hd. destruct hd as [hd|[hd|hd]]; try discriminate. destruct (i2 _ hd) as (t' & i & j). exists t'. split; [right; exact i|exact j].
Qed.

(** Two requests to terminate abort the program, if it gets that far. *)
Lemma loop_abort maxRuntime rundir last ticks f actions :
  sweep_loop maxRuntime rundir ticks last f = (actions, Aborted) ->
  (2 <= (if terminateProgram f then 1 else 0) + terminations (received ticks ++ last))%nat.
Proof.
  revert f actions. induction ticks as [|t r IH]; intros f actions h; cbn [sweep_loop] in h.
  - rewrite handle_spec in h. destruct (_ <=? 1)%nat eqn:e; [discriminate|]. apply Nat.leb_gt in e. exact e.
  - rewrite handle_spec in h. change (received (t :: r)) with (signals t ++ received r).
    rewrite <- app_assoc, terminations_app.
    destruct ((if terminateProgram f then 1 else 0) + terminations (signals t) <=? 1)%nat eqn:e; [|apply Nat.leb_gt in e; lia].
    cbn [terminateProgram earlySave] in h. destruct (_ && _); [discriminate|].
    destruct (terminateProgram f || _) eqn:et; [discriminate|].
    apply orb_false_iff in et. destruct et as [et em]. apply negb_false_iff, Nat.eqb_eq in em.
    match type of h with context [if ?b then early_save rundir t else ?x] => destruct (if b then early_save rundir t else x) as [saved [e'|]] end; [discriminate|].
    destruct (sweep_throws t); [discriminate|].
    destruct (sweep_loop maxRuntime rundir r last _) as [actions' e'] eqn:el.
    injection h as _ ->. apply IH in el. cbn [terminateProgram] in el. rewrite et. lia.
Qed.

Lemma star_app {A} (l m : list action) (xs : list A) : forall snapshot,
  exists xs' snapshot', star_saves (l ++ m) xs snapshot = star_saves l xs snapshot ++ star_saves m xs' snapshot'.
Proof.
  revert xs. induction l as [|a r IH]; intros xs snapshot; [exists xs, snapshot; reflexivity|].
  destruct a; cbn [app star_saves].
  - apply IH.
  - destruct xs; apply IH.
  - destruct (IH xs []) as (x & s & e). exists x, s. rewrite e. reflexivity.
  - destruct (IH xs []) as (x & s & e). exists x, s. rewrite e. reflexivity.
Qed.
Lemma star_concat {A} (l : list action) dir : forall (xs : list A) snapshot,
  flat_map snd (star_saves (l ++ [SavedFinally dir]) xs snapshot) = snapshot ++ firstn (measurements l) xs.
Proof.
  induction l as [|a r IH]; intros xs snapshot.
  - cbn. rewrite !app_nil_r. reflexivity.
  - destruct a; cbn [app star_saves]; unfold measurements; cbn [filter List.length]; fold (measurements r).
    + apply IH.
    + destruct xs as [|x xs]; rewrite IH; [rewrite firstn_nil; reflexivity|]. rewrite <- app_assoc. reflexivity.
    + cbn [flat_map snd]. rewrite IH. reflexivity.
    + cbn [flat_map snd]. rewrite IH. reflexivity.
Qed.
Lemma star_no_early {A} (l : list action) dir : early_saves l = [] -> (forall d, ~ In (SavedFinally d) l) -> forall (xs : list A) snapshot,
  star_saves (l ++ [SavedFinally dir]) xs snapshot = [((dir ++ "/StarPolymers/snapshots.vtf")%string, snapshot ++ firstn (measurements l) xs)].
Proof.
  induction l as [|a r IH]; intros he hf xs snapshot.
  - cbn. rewrite app_nil_r. reflexivity.
  - assert (hf': forall d, ~ In (SavedFinally d) r) by (intros d hd; apply (hf d); right; exact hd).
    destruct a; cbn [app star_saves]; unfold measurements; cbn [filter List.length]; fold (measurements r).
    + apply IH; assumption.
    + destruct xs as [|x xs]; rewrite IH by assumption; [rewrite firstn_nil; reflexivity|]. rewrite <- app_assoc. reflexivity.
    + discriminate.
    + destruct (hf dir0). left. reflexivity.
Qed.
