(** The list of atom ranges. *)
From Verif Require Import VtfSpec.
From Coq Require Import Lia.
Open Scope Z_scope.
Open Scope list_scope.

Section Ranges.
Variable F : Type.
Implicit Types (l : list (range F)) (r it : range F) (d : properties F).

Lemma contiguous_bool n l : contiguousFrom n l = true <-> contiguous n l.
Proof.
  revert n. induction l as [|r l IH]; intros n; cbn [contiguousFrom contiguous]; [tauto|].
  rewrite !andb_true_iff, IH, Z.eqb_eq, Z.leb_le. split; intros H; intuition lia.
Qed.

Fixpoint ends (n : Z) l : Z := match l with [] => n | r :: l' => ends (r_last r + 1) l' end.
Lemma atomCount_ends n r l : atomCount (r :: l) = ends n (r :: l).
Proof.
  revert n r. induction l as [|s l IH]; intros n r; [reflexivity|].
  change (atomCount (r :: s :: l)) with (atomCount (s :: l)). rewrite (IH (r_last r + 1) s). reflexivity.
Qed.
Lemma atomCount_ends0 l : atomCount l = ends 0 l.
Proof. destruct l as [|r l]; [reflexivity|]. apply atomCount_ends. Qed.
Lemma ends_ge n l : contiguous n l -> n <= ends n l.
Proof.
  revert n. induction l as [|r l IH]; intros n H; cbn [ends]; [lia|].
  destruct H as [H1 [H2 H3]]. specialize (IH _ H3). lia.
Qed.
Lemma ends_app n l m : ends n (l ++ m) = ends (ends n l) m.
Proof. revert n. induction l as [|r l IH]; intros n; [reflexivity|]. apply IH. Qed.
Lemma contiguous_app n l m : contiguous n (l ++ m) <-> contiguous n l /\ contiguous (ends n l) m.
Proof.
  revert n. induction l as [|r l IH]; intros n; cbn [app contiguous ends]; [tauto|].
  rewrite IH. tauto.
Qed.
Lemma lookup_end n l i : contiguous n l -> ends n l <= i -> propertiesIn l i = Err OutOfBoundsException.
Proof.
  revert n. induction l as [|r l IH]; intros n H Hi; [reflexivity|].
  destruct H as [H1 [H2 H3]]. cbn [ends] in Hi. pose proof (ends_ge _ _ H3).
  cbn [propertiesIn]. destruct (Z.ltb_spec (r_last r) i); [|lia]. apply (IH _ H3 Hi).
Qed.
Lemma lookup_app n l m i : contiguous n l -> n <= i ->
  propertiesIn (l ++ m) i = if i <? ends n l then propertiesIn l i else propertiesIn m i.
Proof.
  revert n. induction l as [|r l IH]; intros n H Hi; cbn [app ends].
  - destruct (Z.ltb_spec i n); [lia|reflexivity].
  - destruct H as [H1 [H2 H3]]. pose proof (ends_ge _ _ H3). cbn [propertiesIn].
    destruct (Z.ltb_spec (r_last r) i) as [L|L].
    + apply (IH _ H3). lia.
    + destruct (Z.ltb_spec i (ends (r_last r + 1) l)); [reflexivity|lia].
Qed.

Lemma cover_ok r : r_first r <= r_last r -> forall l m, contiguous m l -> m <= r_last r + 1 ->
  exists l', cover false r l = Ok l' /\ contiguous (r_first r) l' /\
    ends (r_first r) l' = Z.max (ends m l) (r_last r + 1) /\
    forall i, r_first r <= i ->
      propertiesIn l' i = if i <=? r_last r then Ok (r_props r) else propertiesIn l i.
Proof.
  intros Hr. induction l as [|it l IH]; intros m H Hm; cbn [cover].
  - exists [r]. split; [reflexivity|]. split; [cbn; tauto|]. split; [cbn [ends] in *; lia|].
    intros i Hi. cbn [propertiesIn]. destruct (Z.ltb_spec (r_last r) i), (Z.leb_spec i (r_last r)); try lia; reflexivity.
  - destruct H as [H1 [H2 H3]]. destruct (Z.leb_spec (r_last it) (r_last r)) as [L|L].
    + destruct (IH _ H3) as [l' [E1 [E2 [E3 E4]]]]; [lia|]. exists l'.
      split; [exact E1|]. split; [exact E2|]. split; [exact E3|].
      intros i Hi. rewrite (E4 i Hi). destruct (Z.leb_spec i (r_last r)); [reflexivity|].
      cbn [propertiesIn]. destruct (Z.ltb_spec (r_last it) i); [reflexivity|lia].
    + cbn [debug_assert andb bind]. eexists. split; [reflexivity|].
      pose proof (ends_ge _ _ H3). cbn [contiguous ends r_first r_last].
      split; [split; [reflexivity|]; split; [exact Hr|]; split; [reflexivity|]; split; [lia|exact H3]|].
      split; [lia|]. intros i Hi. cbn [propertiesIn r_last r_props].
      destruct (Z.ltb_spec (r_last r) i), (Z.leb_spec i (r_last r)); try lia; reflexivity.
Qed.

Lemma replace_ok r : r_first r <= r_last r -> forall l n, contiguous n l -> n <= r_first r ->
  (ends n l <= r_first r -> replace_range false r l = Ok None) /\
  (r_first r < ends n l -> exists l', replace_range false r l = Ok (Some l') /\ contiguous n l' /\
     ends n l' = Z.max (ends n l) (r_last r + 1) /\
     forall i, n <= i -> propertiesIn l' i =
       if (r_first r <=? i) && (i <=? r_last r) then Ok (r_props r) else propertiesIn l i).
Proof.
  intros Hr. induction l as [|it l IH]; intros n H Hn; cbn [replace_range ends].
  - split; [reflexivity|lia].
  - destruct H as [H1 [H2 H3]]. pose proof (ends_ge _ _ H3).
    destruct (Z.ltb_spec (r_last it) (r_first r)) as [L|L].
    + destruct (IH _ H3) as [A B]; [lia|]. split.
      * intros E. rewrite (A E). reflexivity.
      * intros E. destruct (B E) as [l' [E1 [E2 [E3 E4]]]]. exists (it :: l'). rewrite E1.
        split; [reflexivity|]. split; [cbn [contiguous]; tauto|]. split; [exact E3|].
        intros i Hi. cbn [propertiesIn]. destruct (Z.ltb_spec (r_last it) i) as [M|M].
        -- apply E4. lia.
        -- destruct (Z.leb_spec (r_first r) i); [lia|reflexivity].
    + split; [lia|]. intros _. cbn [debug_assert andb bind].
      destruct (Z.ltb_spec (r_first it) (r_first r)) as [P|P].
      * destruct (cover_ok r Hr (Range (r_first r) (r_last it) (r_props it) :: l) (r_first r))
          as [l' [E1 [E2 [E3 E4]]]].
        { cbn [contiguous r_first r_last]. tauto. } { lia. }
        rewrite E1. eexists. split; [reflexivity|]. cbn [app contiguous ends r_first r_last] in *.
        replace (r_first r - 1 + 1) with (r_first r) by lia.
        split; [split; [exact H1|]; split; [lia|exact E2]|]. split; [exact E3|].
        intros i Hi. cbn [propertiesIn r_last r_props].
        destruct (Z.ltb_spec (r_first r - 1) i) as [M|M].
        -- rewrite (E4 i) by lia. destruct (Z.leb_spec (r_first r) i); [|lia]. cbn [andb propertiesIn r_last r_props].
           reflexivity.
        -- destruct (Z.leb_spec (r_first r) i); [lia|]. cbn [andb].
           destruct (Z.ltb_spec (r_last it) i); [lia|reflexivity].
      * destruct (cover_ok r Hr (it :: l) (r_first r)) as [l' [E1 [E2 [E3 E4]]]].
        { cbn [contiguous]. repeat split; [lia|lia|exact H3]. } { lia. }
        rewrite E1. eexists. split; [reflexivity|]. cbn [app].
        assert (EQ : n = r_first r) by lia. rewrite EQ.
        split; [exact E2|]. split; [exact E3|]. intros i Hi. rewrite (E4 i Hi).
        destruct (Z.leb_spec (r_first r) i); [reflexivity|lia].
Qed.

Lemma setAtomRange_ok d l r : contiguous 0 l -> 0 <= r_first r <= r_last r ->
  exists l', setAtomRange false d l r = Ok l' /\ contiguous 0 l' /\
    atomCount l' = Z.max (atomCount l) (r_last r + 1) /\
    forall i, 0 <= i -> propertiesIn l' i =
      if (r_first r <=? i) && (i <=? r_last r) then Ok (r_props r)
      else if i <? atomCount l then propertiesIn l i
      else if i <? atomCount l' then Ok d else Err OutOfBoundsException.
Proof.
  intros H Hr. unfold setAtomRange, assertAtomRangesContiguous.
  rewrite (proj2 (contiguous_bool 0 l) H). cbn [bind debug_assert andb].
  destruct l as [|it l].
  - set (l1 := (if r_first r =? 0 then [] else [Range 0 (r_first r - 1) d]) ++ [r]).
    assert (C : contiguous 0 l1 /\ ends 0 l1 = r_last r + 1 /\
                forall i, 0 <= i -> propertiesIn l1 i = if i <? r_first r then Ok d
                   else if i <=? r_last r then Ok (r_props r) else Err OutOfBoundsException).
    { subst l1. destruct (Z.eqb_spec (r_first r) 0) as [E|E]; cbn [app contiguous ends r_first r_last].
      - split; [repeat split; lia|]. split; [reflexivity|]. intros i Hi. cbn [propertiesIn].
        destruct (Z.ltb_spec (r_last r) i), (Z.ltb_spec i (r_first r)), (Z.leb_spec i (r_last r)); try lia; reflexivity.
      - split; [repeat split; lia|]. split; [reflexivity|]. intros i Hi. cbn [propertiesIn r_last r_props].
        destruct (Z.ltb_spec (r_first r - 1) i), (Z.ltb_spec i (r_first r)); try lia; [|reflexivity].
        destruct (Z.ltb_spec (r_last r) i), (Z.leb_spec i (r_last r)); try lia; reflexivity. }
    destruct C as [C1 [C2 C3]].
    destruct (replace_ok r (proj2 Hr) l1 0 C1 (proj1 Hr)) as [_ B].
    destruct B as [l' [E1 [E2 [E3 E4]]]]; [lia|]. rewrite E1. cbn [bind]. exists l'.
    split; [reflexivity|]. split; [exact E2|]. rewrite !atomCount_ends0. split; [cbn [ends]; lia|].
    intros i Hi. rewrite (E4 i Hi), (C3 i Hi), E3, C2. cbn [ends].
    destruct (Z.leb_spec (r_first r) i), (Z.leb_spec i (r_last r)), (Z.ltb_spec i (r_first r)),
      (Z.ltb_spec i 0), (Z.ltb_spec i (Z.max (r_last r + 1) (r_last r + 1))); try lia; reflexivity.
  - set (l1 := it :: l) in *. rewrite !atomCount_ends0.
    destruct (replace_ok r (proj2 Hr) l1 0 H (proj1 Hr)) as [A B].
    destruct (Z_lt_ge_dec (r_first r) (ends 0 l1)) as [L|L].
    + destruct (B L) as [l' [E1 [E2 [E3 E4]]]]. rewrite E1. cbn [bind]. exists l'.
      split; [reflexivity|]. split; [exact E2|]. rewrite atomCount_ends0. split; [exact E3|].
      intros i Hi. rewrite (E4 i Hi), E3.
      destruct ((r_first r <=? i) && (i <=? r_last r)) eqn:T; [reflexivity|].
      destruct (Z.ltb_spec i (ends 0 l1)); [reflexivity|].
      rewrite (lookup_end 0 l1 i H) by lia.
      destruct (Z.ltb_spec i (Z.max (ends 0 l1) (r_last r + 1))); [|reflexivity].
      apply andb_false_iff in T. destruct T as [T|T]; apply Z.leb_gt in T; lia.
    + rewrite A by lia. cbn [bind]. eexists. split; [reflexivity|].
      set (gap := if ends 0 l1 <? r_first r then [Range (ends 0 l1) (r_first r - 1) d] else []).
      assert (G : contiguous (ends 0 l1) (gap ++ [r]) /\ ends (ends 0 l1) (gap ++ [r]) = r_last r + 1 /\
        forall i, ends 0 l1 <= i -> propertiesIn (gap ++ [r]) i = if i <? r_first r then Ok d
                   else if i <=? r_last r then Ok (r_props r) else Err OutOfBoundsException).
      { subst gap. destruct (Z.ltb_spec (ends 0 l1) (r_first r)) as [M|M]; cbn [app contiguous ends r_first r_last].
        - split; [repeat split; lia|]. split; [reflexivity|]. intros i Hi. cbn [propertiesIn r_last r_props].
          destruct (Z.ltb_spec (r_first r - 1) i), (Z.ltb_spec i (r_first r)); try lia; [|reflexivity].
          destruct (Z.ltb_spec (r_last r) i), (Z.leb_spec i (r_last r)); try lia; reflexivity.
        - split; [repeat split; lia|]. split; [reflexivity|]. intros i Hi. cbn [propertiesIn].
          destruct (Z.ltb_spec (r_last r) i), (Z.ltb_spec i (r_first r)), (Z.leb_spec i (r_last r)); try lia; reflexivity. }
      destruct G as [G1 [G2 G3]].
      rewrite !atomCount_ends0, ends_app, G2. split; [apply contiguous_app; split; assumption|]. split; [lia|].
      intros i Hi. rewrite (lookup_app 0 l1 _ i H Hi).
      destruct (Z.ltb_spec i (ends 0 l1)) as [M|M].
      * destruct (Z.leb_spec (r_first r) i); [lia|reflexivity].
      * rewrite (G3 i M).
        destruct (Z.leb_spec (r_first r) i), (Z.leb_spec i (r_last r)), (Z.ltb_spec i (r_first r)),
          (Z.ltb_spec i (r_last r + 1)); try lia; reflexivity.
Qed.

(** The assertion in debug builds. *)
Definition boundary l (b : Z) : Prop := exists it, In it l /\ r_last it = b /\ b + 1 < atomCount l.

Lemma in_last n l it : contiguous n l -> In it l -> r_last it + 1 <= ends n l.
Proof.
  revert n. induction l as [|s l IH]; intros n H Hx; [destruct Hx|]; destruct Hx as [E|E].
  - subst. cbn [ends]. apply ends_ge. apply H.
  - cbn [ends]. apply IH; [apply H|exact E].
Qed.
Lemma in_first n l it : contiguous n l -> In it l -> n <= r_last it.
Proof.
  revert n. induction l as [|s l IH]; intros n H Hx; [destruct Hx|]; destruct Hx as [E|E].
  - subst. apply H.
  - destruct H as [H1 [H2 H3]]. specialize (IH _ H3 E). lia.
Qed.

Lemma cover_debug r : r_first r <= r_last r -> forall l m, contiguous m l -> r_first r <= m <= r_last r + 1 ->
  ((m = r_last r + 1 /\ l <> [] \/ exists it, In it l /\ r_last it = r_last r /\ r_last r + 1 < ends m l) /\
   cover true r l = Err AssertionError) \/
  (~ (m = r_last r + 1 /\ l <> [] \/ exists it, In it l /\ r_last it = r_last r /\ r_last r + 1 < ends m l) /\
   cover true r l = cover false r l).
Proof.
  intros Hr. induction l as [|it l IH]; intros m H Hm; cbn [cover].
  - right. split; [|reflexivity]. intros [[_ N]|[x [[] _]]]. congruence.
  - destruct H as [H1 [H2 H3]]. pose proof (ends_ge _ _ H3) as G.
    destruct (Z.leb_spec (r_last it) (r_last r)) as [L|L].
    + destruct (IH _ H3) as [[C E]|[C E]]; [lia| |].
      * left. split; [|exact E]. right.
        destruct C as [[C N]|[x [Hx [Hl Hc]]]].
        -- exists it. split; [left; reflexivity|]. split; [lia|]. cbn [ends]. destruct l as [|s l]; [congruence|].
           destruct H3 as [A1 [A2 A3]]. cbn [ends]. pose proof (ends_ge _ _ A3). lia.
        -- exists x. split; [right; exact Hx|]. split; [exact Hl|]. exact Hc.
      * right. split; [|exact E]. intros K. apply C.
        destruct K as [[K N]|[x [[Hx|Hx] [Hl Hc]]]].
        -- lia.
        -- subst x. left. split; [lia|]. intros ->. cbn [ends] in Hc. lia.
        -- right. exists x. repeat split; assumption.
    + cbn [debug_assert andb negb]. destruct (Z.leb_spec (r_first r) (r_first it)); [|lia]. cbn [negb bind].
      destruct (Z.ltb_spec (r_last r) (r_last it)); [|lia].
      destruct (Z.leb_spec (r_first it) (r_last r)) as [M|M]; cbn [negb bind].
      * right. split; [|reflexivity]. intros [[K _]|[x [[Hx|Hx] [Hl Hc]]]].
        -- lia.
        -- subst x. lia.
        -- pose proof (in_first _ _ _ H3 Hx). lia.
      * left. split; [|reflexivity]. left. split; [lia|discriminate].
Qed.
Lemma replace_debug r : r_first r <= r_last r -> forall l n, contiguous n l -> n <= r_first r ->
  ((exists it, In it l /\ r_last it = r_last r /\ r_last r + 1 < ends n l) /\
   replace_range true r l = Err AssertionError) \/
  (~ (exists it, In it l /\ r_last it = r_last r /\ r_last r + 1 < ends n l) /\
   replace_range true r l = replace_range false r l).
Proof.
  intros Hr. induction l as [|it l IH]; intros n H Hn; cbn [replace_range ends].
  - right. split; [|reflexivity]. intros [x [[] _]].
  - destruct H as [H1 [H2 H3]]. pose proof (ends_ge _ _ H3) as G.
    destruct (Z.ltb_spec (r_last it) (r_first r)) as [L|L].
    + destruct (IH _ H3) as [[[x [Hx [Hl Hc]]] E]|[C E]]; [lia| |].
      * left. rewrite E. split; [|reflexivity]. exists x. split; [right; exact Hx|]. tauto.
      * right. rewrite E. split; [|reflexivity]. intros [x [[Hx|Hx] [Hl Hc]]].
        -- subst x. lia.
        -- apply C. exists x. tauto.
    + cbn [debug_assert andb bind]. destruct (Z.leb_spec (r_first it) (r_first r)); [|lia]. cbn [negb bind].
      destruct (Z.ltb_spec (r_first it) (r_first r)) as [P|P].
      * cbn [r_first]. rewrite Z.eqb_refl. cbn [negb bind].
        destruct (cover_debug r Hr (Range (r_first r) (r_last it) (r_props it) :: l) (r_first r))
          as [[C E]|[C E]]; [cbn [contiguous r_first r_last]; tauto|lia| |]; rewrite E.
        -- left. split; [|reflexivity]. destruct C as [[C _]|[x [[Hx|Hx] [Hl Hc]]]]; [lia| |].
           ++ subst x. cbn [r_last ends] in *. exists it. split; [left; reflexivity|]. tauto.
           ++ cbn [r_last ends] in *. exists x. split; [right; exact Hx|]. tauto.
        -- right. split; [|reflexivity]. intros [x [[Hx|Hx] [Hl Hc]]]; apply C; right.
           ++ subst x. eexists. split; [left; reflexivity|]. cbn [r_last ends]. tauto.
           ++ exists x. split; [right; exact Hx|]. cbn [r_last ends]. tauto.
      * assert (EQ : r_first r = r_first it) by lia. rewrite EQ, Z.eqb_refl. cbn [negb bind].
        destruct (cover_debug r Hr (it :: l) (r_first r)) as [[C E]|[C E]];
          [cbn [contiguous]; repeat split; [lia|lia|exact H3]|lia| |]; rewrite E.
        -- left. split; [|reflexivity]. destruct C as [[C _]|C]; [lia|exact C].
        -- right. split; [|reflexivity]. intros K. apply C. right. exact K.
Qed.
Lemma setAtomRange_debug d l r : contiguous 0 l -> 0 <= r_first r <= r_last r ->
  (boundary l (r_last r) /\ setAtomRange true d l r = Err AssertionError) \/
  (~ boundary l (r_last r) /\ setAtomRange true d l r = setAtomRange false d l r).
Proof.
  intros H Hr. unfold setAtomRange, assertAtomRangesContiguous.
  rewrite (proj2 (contiguous_bool 0 l) H). cbn [bind debug_assert andb].
  destruct (Z.leb_spec (r_first r) (r_last r)); [|lia]. cbn [negb bind].
  destruct l as [|it l].
  - right. split; [intros [x [[] _]]|].
    set (l1 := (if r_first r =? 0 then [] else [Range 0 (r_first r - 1) d]) ++ [r]).
    assert (C : contiguous 0 l1 /\ ends 0 l1 = r_last r + 1).
    { subst l1. destruct (Z.eqb_spec (r_first r) 0) as [E|E]; cbn [app contiguous ends r_first r_last];
      (split; [repeat split; lia|reflexivity]). }
    destruct (replace_debug r (proj2 Hr) l1 0 (proj1 C) (proj1 Hr)) as [[[x [_ [_ X]]] _]|[_ E]]; [lia|].
    rewrite E. reflexivity.
  - destruct (replace_debug r (proj2 Hr) (it :: l) 0 H (proj1 Hr)) as [[C E]|[C E]]; rewrite E; cbn [bind].
    + left. split; [|reflexivity]. unfold boundary. rewrite (atomCount_ends 0). exact C.
    + right. split; [|reflexivity]. unfold boundary. rewrite (atomCount_ends 0). exact C.
Qed.

Lemma setAtomRange_append dbg d l r : contiguous 0 l -> r_first r = atomCount l -> r_first r <= r_last r ->
  setAtomRange dbg d l r = Ok (l ++ [r]).
Proof.
  intros H E Hr.
  assert (N : 0 <= atomCount l) by (rewrite atomCount_ends0; apply ends_ge, H).
  assert (R : setAtomRange false d l r = Ok (l ++ [r])).
  { unfold setAtomRange, assertAtomRangesContiguous. rewrite (proj2 (contiguous_bool 0 l) H).
    cbn [bind debug_assert andb]. destruct l as [|it l].
    - cbn [atomCount] in E. rewrite E. cbn [Z.eqb app replace_range].
      destruct (Z.ltb_spec (r_last r) (r_first r)); [lia|]. cbn [debug_assert andb bind].
      rewrite E. destruct (Z.ltb_spec 0 0); [lia|]. cbn [cover].
      rewrite Z.leb_refl. reflexivity.
    - destruct (replace_ok r Hr (it :: l) 0 H) as [A _]; [lia|].
      rewrite A by (rewrite <- (atomCount_ends 0 it l); lia). cbn [bind].
      destruct (Z.ltb_spec (atomCount (it :: l)) (r_first r)); [lia|]. reflexivity. }
  destruct dbg; [|exact R].
  destruct (setAtomRange_debug d l r H) as [[[x [Hx [Hl Hc]]] _]|[_ X]]; [lia| |rewrite X; exact R].
  pose proof (in_last 0 l x H Hx) as L. rewrite <- atomCount_ends0 in L. lia.
Qed.
End Ranges.
