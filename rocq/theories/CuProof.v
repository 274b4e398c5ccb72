(** Proofs about launches and ranges. *)
From Coq Require Import List ZArith Bool Lia Permutation.
From Verif Require Import PyBase CuModel.
Import ListNotations.
Open Scope Z_scope.

Definition zfrom (a n : Z) : list Z := map (fun i => a + i) (zrange n).
Lemma zrange_nil n : n <= 0 -> zrange n = [].
Proof. intros H. unfold zrange. replace (Z.to_nat n) with O by lia. reflexivity. Qed.
Lemma zrange_succ n : 0 <= n -> zrange (n + 1) = zrange n ++ [n].
Proof.
  intros H. unfold zrange. replace (Z.to_nat (n + 1)) with (S (Z.to_nat n)) by lia.
  rewrite seq_S, map_app. cbn. rewrite Z2Nat.id by lia. reflexivity.
Qed.
Lemma In_zrange n i : In i (zrange n) <-> 0 <= i < n.
Proof.
  unfold zrange. rewrite in_map_iff. split.
  - intros (k & <- & H). apply in_seq in H. lia.
  - intros H. exists (Z.to_nat i). split; [lia|]. apply in_seq. lia.
Qed.
Lemma zrange_length n : length (zrange n) = Z.to_nat n.
Proof. unfold zrange. now rewrite map_length, seq_length. Qed.
Lemma zrange_ind (P : Z -> Prop) : (forall n, n <= 0 -> P n) -> (forall n, 0 <= n -> P n -> P (n + 1)) -> forall n, P n.
Proof.
  intros P0 PS n. destruct (Z_le_gt_dec n 0) as [H|H]; [auto|].
  rewrite <- (Z2Nat.id n) by lia. induction (Z.to_nat n) as [|k IH]; [apply P0; lia|].
  rewrite Nat2Z.inj_succ. apply PS; [lia|exact IH].
Qed.
Lemma zfrom_nil a n : n <= 0 -> zfrom a n = [].
Proof. intros H. unfold zfrom. now rewrite zrange_nil. Qed.
Lemma zfrom_succ a n : 0 <= n -> zfrom a (n + 1) = zfrom a n ++ [a + n].
Proof. intros H. unfold zfrom. now rewrite zrange_succ, map_app by lia. Qed.
Lemma zfrom_app a m : forall n, 0 <= m -> 0 <= n -> zfrom a m ++ zfrom (a + m) n = zfrom a (m + n).
Proof.
  apply (zrange_ind (fun n => 0 <= m -> 0 <= n -> zfrom a m ++ zfrom (a + m) n = zfrom a (m + n))).
  - intros n H Hm Hn. replace n with 0 by lia. rewrite Z.add_0_r, (zfrom_nil _ 0) by lia. apply app_nil_r.
  - intros n H IH Hm _. rewrite zfrom_succ by lia. rewrite app_assoc, IH by lia.
    replace (m + (n + 1)) with (m + n + 1) by lia. rewrite zfrom_succ by lia. now rewrite Z.add_assoc.
Qed.
Lemma zfrom_0 n : zfrom 0 n = zrange n.
Proof. unfold zfrom. transitivity (map (fun i => i) (zrange n)); [now apply map_ext|apply map_id]. Qed.
Lemma In_zfrom a n i : In i (zfrom a n) <-> a <= i < a + n.
Proof.
  unfold zfrom. rewrite in_map_iff. split.
  - intros (k & <- & H). apply In_zrange in H. lia.
  - intros H. exists (i - a). split; [lia|]. apply In_zrange. lia.
Qed.
Lemma zrange_app m n : 0 <= m -> 0 <= n -> zrange (m + n) = zrange m ++ zfrom m n.
Proof. intros. rewrite <- !zfrom_0, <- zfrom_app by lia. reflexivity. Qed.
Lemma u32_small z : 0 <= z < 2 ^ 32 -> u32 z = z.
Proof. intros. unfold u32. now apply Z.mod_small. Qed.
Lemma u32_add a b : u32 (u32 a + b) = u32 (a + b).
Proof. unfold u32. now rewrite Zplus_mod_idemp_l. Qed.
Lemma u32_add' a b : u32 (a + u32 b) = u32 (a + b).
Proof. unfold u32. now rewrite Zplus_mod_idemp_r. Qed.

(** * Launches *)
Lemma thread_unit_eq b B t off : thread_unit b B t off = u32 (b * B + t + off).
Proof.
  unfold thread_unit. rewrite u32_add. replace (u32 (b * B) + t + off) with (u32 (b * B) + (t + off)) by ring.
  rewrite u32_add. f_equal. ring.
Qed.
Lemma grid_units B off g : 0 < B -> 0 <= off -> off + g * B <= 2 ^ 32 ->
  flat_map (fun b => map (fun t => thread_unit b B t off) (zrange B)) (zrange g) = zfrom off (g * B).
Proof.
  intros HB Ho. revert g. apply (zrange_ind (fun g => off + g * B <= 2 ^ 32 ->
     flat_map (fun b => map (fun t => thread_unit b B t off) (zrange B)) (zrange g) = zfrom off (g * B))).
  - intros n Hn _. rewrite (zrange_nil n), zfrom_nil by nia. reflexivity.
  - intros n Hn IH H. assert (E : (n + 1) * B = n * B + B) by ring. assert (0 <= n * B) by nia.
    rewrite (zrange_succ n), flat_map_app, IH by lia. cbn [flat_map]. rewrite app_nil_r.
    rewrite E, <- zfrom_app by lia. f_equal.
    unfold zfrom. apply map_ext_in. intros t Ht. apply In_zrange in Ht. rewrite thread_unit_eq, u32_small by lia. ring.
Qed.
Lemma filter_zfrom N a : a <= N -> forall n, filter (fun i => i <? N) (zfrom a n) = zfrom a (Z.min n (N - a)).
Proof.
  intros H. apply (zrange_ind (fun n => filter (fun i => i <? N) (zfrom a n) = zfrom a (Z.min n (N - a)))).
  - intros n Hn. rewrite !zfrom_nil by lia. reflexivity.
  - intros n Hn IH. rewrite zfrom_succ, filter_app, IH by lia. cbn [filter]. destruct (Z.ltb_spec (a + n) N).
    + rewrite !Z.min_l by lia. now rewrite zfrom_succ by lia.
    + rewrite !Z.min_r by lia. apply app_nil_r.
Qed.
Lemma launch_units_eq N B g off : 0 < B -> 0 <= off <= N -> off + g * B <= 2 ^ 32 ->
  launch_units N B (g, off) = zfrom off (Z.min (g * B) (N - off)).
Proof. intros. unfold launch_units. cbn [fst snd]. rewrite grid_units by lia. apply filter_zfrom. lia. Qed.
Definition grid_size (N G B w : Z) : Z := Z.min G ((N - w) / B + 1).
Lemma launches_step f N G B w : 0 < B -> 0 < G -> 0 <= w < N -> N + 1 < 2 ^ 32 -> 0 <= G * B < 2 ^ 32 ->
  launches (S f) N G B w = option_map (cons (grid_size N G B w, w)) (launches f N G B (u32 (w + G * B))).
Proof.
  intros HB HG Hw HN HD. cbn [launches]. rewrite (proj2 (Z.ltb_lt w N)) by lia.
  assert (Q : 0 <= (N - w) / B <= N - w).
  { split; [apply Z.div_pos; lia|]. apply Z.div_le_upper_bound; [lia|]. nia. }
  rewrite (u32_small (N - w)), (u32_small ((N - w) / B + 1)), u32_add' by lia.
  unfold grid_size. destruct (Z.ltb_spec G ((N - w) / B + 1)).
  - now rewrite Z.min_l by lia.
  - now rewrite Z.min_r by lia.
Qed.
Lemma grid_covers N G B w : 0 < B -> 0 < G -> 0 <= w < N ->
  Z.min (grid_size N G B w * B) (N - w) = Z.min (G * B) (N - w) /\ 0 < grid_size N G B w <= G.
Proof.
  intros HB HG Hw. unfold grid_size. pose proof (Z_div_mod_eq_full (N - w) B) as E.
  pose proof (Z.mod_pos_bound (N - w) B HB) as M. set (q := (N - w) / B) in *.
  assert (0 <= q) by (apply Z.div_pos; lia).
  destruct (Z.min_spec G (q + 1)) as [[L ->]|[L ->]]; split; try reflexivity; try lia; nia.
Qed.
Lemma launches_from N G B : 0 < B -> 0 < G -> N + 1 < 2 ^ 32 -> N + G * B <= 2 ^ 32 ->
  forall k w, 0 <= w -> N - w <= Z.of_nat k * (G * B) -> forall f, (k < f)%nat ->
  option_map (flat_map (launch_units N B)) (launches f N G B w) = Some (zfrom w (N - w)).
Proof.
  intros HB HG HN HW. induction k as [|k IH]; intros w Hw Hk f Hf; (destruct f as [|f]; [lia|]).
  - cbn [launches]. rewrite (proj2 (Z.ltb_ge w N)) by lia. cbn. now rewrite zfrom_nil by lia.
  - destruct (Z.ltb_spec w N) as [L|L].
    + assert (0 < G * B) by nia. rewrite launches_step by (try lia; nia). rewrite u32_small by lia.
      specialize (IH (w + G * B) ltac:(lia) ltac:(nia) f ltac:(lia)).
      destruct (launches f N G B (w + G * B)) as [l|]; [|discriminate]. cbn [option_map] in *.
      injection IH as IH. cbn [flat_map]. rewrite IH. f_equal.
      destruct (grid_covers N G B w) as [C D]; try lia.
      rewrite launch_units_eq by (try lia; nia). rewrite C.
      destruct (Z.min_spec (G * B) (N - w)) as [[M ->]|[M ->]].
      * rewrite zfrom_app by lia. f_equal. lia.
      * rewrite (zfrom_nil (w + G * B)) by lia. apply app_nil_r.
    + cbn [launches]. rewrite (proj2 (Z.ltb_ge w N)) by lia. cbn. now rewrite zfrom_nil by lia.
Qed.
Lemma launch_exact N G B : 0 < B -> 0 < G -> N + 1 < 2 ^ 32 -> N + G * B <= 2 ^ 32 ->
  exists f0, forall f, (f0 <= f)%nat -> dispatched f N G B = Some (zrange N).
Proof.
  intros HB HG HN HW. exists (S (Z.to_nat N)). intros f Hf. unfold dispatched.
  rewrite (launches_from N G B HB HG HN HW (Z.to_nat N)) by nia. now rewrite Z.sub_0_r, zfrom_0.
Qed.
Lemma launch_stuck N : 2 ^ 32 - 2 ^ 19 < N -> forall f k, 0 <= k < 2 ^ 13 -> launches f N 1024 512 (k * 2 ^ 19) = None.
Proof.
  intros HN. induction f as [|f IH]; intros k Hk; [reflexivity|]. cbn [launches].
  rewrite (proj2 (Z.ltb_lt _ N)) by lia.
  replace (u32 (k * 2 ^ 19 + u32 (1024 * 512))) with ((k + 1) mod 2 ^ 13 * 2 ^ 19).
  - rewrite IH; [reflexivity|]. apply Z.mod_pos_bound. lia.
  - change (u32 (1024 * 512)) with (2 ^ 19). unfold u32. change (2 ^ 32) with (2 ^ 13 * 2 ^ 19).
    rewrite <- Zmult_mod_distr_r. f_equal. ring.
Qed.
Lemma launch_endless N : 2 ^ 32 - 2 ^ 19 < N -> forall f, dispatched f N 1024 512 = None.
Proof. intros H f. unfold dispatched. change 0 with (0 * 2 ^ 19). rewrite launch_stuck by lia. reflexivity. Qed.
Lemma overlap_dup a n b m (mid l : list Z) x : a <= x < a + n -> b <= x < b + m -> ~ NoDup (zfrom a n ++ mid ++ zfrom b m ++ l).
Proof.
  intros A B. apply In_zfrom in A. apply In_zfrom in B. apply in_split in A. destruct A as (p & q & ->). intros H.
  rewrite <- app_assoc in H. cbn in H. apply NoDup_remove_2 in H. apply H. rewrite !in_app_iff. tauto.
Qed.
Lemma launch_twice : exists f l, dispatched f (7 * 2 ^ 29) (5 * 2 ^ 19) 1024 = Some l /\ ~ NoDup l.
Proof.
  exists 4%nat. eexists. split.
  - unfold dispatched. rewrite launches_step by lia.
    change (u32 (0 + 5 * 2 ^ 19 * 1024)) with (5 * 2 ^ 29). rewrite launches_step by lia.
    change (u32 (5 * 2 ^ 29 + 5 * 2 ^ 19 * 1024)) with (2 * 2 ^ 29). rewrite launches_step by lia.
    change (u32 (2 * 2 ^ 29 + 5 * 2 ^ 19 * 1024)) with (7 * 2 ^ 29).
    cbn [launches option_map]. change (7 * 2 ^ 29 <? 7 * 2 ^ 29) with false. reflexivity.
  - change (grid_size (7 * 2 ^ 29) (5 * 2 ^ 19) 1024 0) with (5 * 2 ^ 19).
    change (grid_size (7 * 2 ^ 29) (5 * 2 ^ 19) 1024 (2 * 2 ^ 29)) with (5 * 2 ^ 19). cbn [flat_map].
    rewrite (launch_units_eq _ _ (5 * 2 ^ 19) 0), (launch_units_eq _ _ (5 * 2 ^ 19) (2 * 2 ^ 29)) by lia.
    apply (overlap_dup _ _ _ _ _ _ (2 * 2 ^ 29)); lia.
Qed.

(** * Ranges *)
Lemma advance_shift b g n : forall ret pos, 0 < b -> 0 <= g -> 0 <= ret -> 0 <= pos < b -> b < 2 ^ 32 ->
  ret + Z.of_nat n + g * ((pos + Z.of_nat n) / b) < 2 ^ 32 ->
  advance_loop n b g ret pos = ret + Z.of_nat n + g * ((pos + Z.of_nat n) / b).
Proof.
  induction n as [|n IH]; intros ret pos Hb Hg Hr Hp Hb2 Hm.
  - cbn [advance_loop]. rewrite Z.add_0_r, Z.div_small by lia. ring.
  - cbn [advance_loop]. rewrite Nat2Z.inj_succ in *.
    assert (0 <= (pos + Z.succ (Z.of_nat n)) / b) by (apply Z.div_pos; lia).
    rewrite (u32_small (pos + 1)), (u32_small (ret + 1)) by nia.
    destruct (Z.eqb_spec (pos + 1) b) as [E|E].
    + replace ((pos + Z.succ (Z.of_nat n)) / b) with (Z.of_nat n / b + 1) in *.
      * assert (0 <= Z.of_nat n / b) by (apply Z.div_pos; lia).
        rewrite u32_small by nia. rewrite IH; rewrite ?Z.add_0_l; nia.
      * replace (pos + Z.succ (Z.of_nat n)) with (Z.of_nat n + 1 * b) by lia. now rewrite Z.div_add by lia.
    + rewrite IH; rewrite ?(proj1 (Z.add_cancel_l _ _ _)); try lia;
      replace (pos + 1 + Z.of_nat n) with (pos + Z.succ (Z.of_nat n)) by lia; lia.
Qed.
Lemma bunch_advance_eq b g i : 0 < b < 2 ^ 32 -> 0 <= g -> 0 <= i -> i + g * (i / b) < 2 ^ 32 ->
  bunch_advance b g i = i + g * (i / b).
Proof.
  intros Hb Hg Hi H. assert (0 <= i / b) by (apply Z.div_pos; lia). unfold bunch_advance. rewrite u32_small by nia.
  rewrite advance_shift; rewrite ?Z2Nat.id, ?Z.add_0_l by lia; lia.
Qed.
Definition bunch_position (b g i : Z) : Z := i + g * (i / b).
Definition in_bunch (b g k : Z) : bool := k mod (b + g) <? b.
Lemma filter_all {A} (f : A -> bool) l : (forall x, In x l -> f x = true) -> filter f l = l.
Proof. induction l as [|x l IH]; intros H; [reflexivity|]. cbn. rewrite H by (left; reflexivity). f_equal. apply IH. intros; apply H; now right. Qed.
Lemma filter_none {A} (f : A -> bool) l : (forall x, In x l -> f x = false) -> filter f l = [].
Proof. induction l as [|x l IH]; intros H; [reflexivity|]. cbn. rewrite H by (left; reflexivity). apply IH. intros; apply H; now right. Qed.
Lemma bunch_first b g n : 0 < b -> 0 <= g -> n <= b -> filter (in_bunch b g) (zrange n) = map (bunch_position b g) (zrange n).
Proof.
  intros Hb Hg Hn. rewrite filter_all.
  - transitivity (map (fun i : Z => i) (zrange n)); [now rewrite map_id|]. apply map_ext_in. intros i Hi. apply In_zrange in Hi.
    unfold bunch_position. rewrite Z.div_small by lia. ring.
  - intros i Hi. apply In_zrange in Hi. unfold in_bunch. rewrite Z.mod_small by lia. apply Z.ltb_lt. lia.
Qed.
Lemma filter_map_comm {A B} (f : A -> B) (h : B -> bool) l : filter h (map f l) = map f (filter (fun x => h (f x)) l).
Proof. induction l as [|x l IH]; [reflexivity|]. cbn. destruct (h (f x)); cbn; now rewrite IH. Qed.
Lemma bunch_visits b g : 0 < b -> 0 <= g -> forall k n e, n <= Z.of_nat k -> 0 <= n -> forall f, (k < f)%nat ->
  exists c, 0 <= c /\ bunch_end f b g e n = Some (e + c) /\ map (bunch_position b g) (zrange c) = filter (in_bunch b g) (zrange n).
Proof.
  intros Hb Hg. induction k as [|k IH]; intros n e Hk Hn f Hf; (destruct f as [|f]; [lia|]); cbn [bunch_end].
  - rewrite (proj2 (Z.leb_le n b)) by lia. exists n. split; [lia|]. split; [reflexivity|]. symmetry. apply bunch_first; lia.
  - destruct (Z.leb_spec n b) as [L|L].
    + exists n. split; [lia|]. split; [reflexivity|]. symmetry. apply bunch_first; lia.
    + destruct (Z.leb_spec (n - b) g) as [L2|L2].
      * exists b. split; [lia|]. split; [reflexivity|]. replace n with (b + (n - b)) by lia.
        rewrite (zrange_app b (n - b)), filter_app, bunch_first by lia. rewrite (filter_none _ (zfrom _ _)); [now rewrite app_nil_r|].
        intros i Hi. apply In_zfrom in Hi. unfold in_bunch.
        destruct (Z.eq_dec (n - b) 0); [lia|]. rewrite Z.mod_small by lia. apply Z.ltb_ge. lia.
      * destruct (IH (n - b - g) (e + b) ltac:(lia) ltac:(lia) f ltac:(lia)) as (c & Hc & E & M).
        exists (b + c). split; [lia|]. split; [rewrite E; f_equal; lia|].
        replace n with (b + (g + (n - b - g))) by lia. rewrite (zrange_app b (g + _)), (zrange_app b c) by lia.
        rewrite filter_app, map_app, bunch_first by lia. f_equal. rewrite <- zfrom_app by lia. rewrite filter_app.
        rewrite (filter_none _ (zfrom b g)).
        -- cbn [app]. unfold zfrom. rewrite filter_map_comm.
           rewrite (filter_ext _ (in_bunch b g)).
           ++ rewrite <- M, !map_map. apply map_ext_in. intros i Hi. apply In_zrange in Hi. unfold bunch_position.
              replace (b + i) with (i + 1 * b) by ring. rewrite Z.div_add by lia. ring.
           ++ intros i. unfold in_bunch. replace (b + g + i) with (i + 1 * (b + g)) by ring. now rewrite Z.mod_add by lia.
        -- intros i Hi. apply In_zfrom in Hi. unfold in_bunch. rewrite Z.mod_small by lia. apply Z.ltb_ge. lia.
Qed.
Lemma bunch_range b g n : 0 < b < 2 ^ 32 -> 0 <= g -> 0 <= n <= 2 ^ 32 ->
  exists f0, forall f, (f0 <= f)%nat -> bunch_visited f b g n = Some (filter (fun k => k mod (b + g) <? b) (zrange n)).
Proof.
  intros Hb Hg Hn. exists (S (Z.to_nat n)). intros f Hf.
  destruct (bunch_visits b g ltac:(lia) Hg (Z.to_nat n) n 0 ltac:(lia) ltac:(lia) f ltac:(lia)) as (c & Hc & E & M).
  unfold bunch_visited. rewrite E. cbn [option_map]. rewrite Z.add_0_l. f_equal. transitivity (map (bunch_position b g) (zrange c)); [|exact M].
  apply map_ext_in. intros i Hi. apply bunch_advance_eq; try lia.
  - apply In_zrange in Hi. lia.
  - assert (In (bunch_position b g i) (filter (in_bunch b g) (zrange n))) as K by (rewrite <- M; apply in_map, Hi).
    apply filter_In in K. destruct K as [K _]. apply In_zrange in K. unfold bunch_position in K. lia.
Qed.
Lemma bunch_long : bunch_advance 1 0 (2 ^ 32) = 0 /\ forall f l, bunch_visited f 1 0 (2 ^ 32 + 1) = Some l -> ~ NoDup l.
Proof.
  split; [reflexivity|]. intros f l. unfold bunch_visited. destruct (bunch_end f 1 0 0 (2 ^ 32 + 1)) as [c|] eqn:E; [|discriminate].
  assert (C : c = 2 ^ 32 + 1).
  { assert (G : forall f e n, 0 < n -> forall c, bunch_end f 1 0 e n = Some c -> c = e + n).
    { clear. induction f as [|f IH]; intros e n Hn c H; [discriminate|]. cbn [bunch_end] in H.
      destruct (Z.leb_spec n 1); [injection H; lia|]. destruct (Z.leb_spec (n - 1) 0); [injection H; lia|].
      apply IH in H; lia. }
    apply (G f 0 (2 ^ 32 + 1)) in E; lia. }
  cbn [option_map]. intros H. injection H as <-. rewrite C. intros D.
  rewrite zrange_succ, map_app in D by lia. cbn [map] in D.
  apply NoDup_remove_2 in D. apply D. rewrite app_nil_r.
  change (bunch_advance 1 0 (2 ^ 32)) with 0. rewrite in_map_iff. exists 0. split; [reflexivity|]. rewrite In_zrange. lia.
Qed.
Lemma strided_range s n : 0 < s -> 0 <= n -> strided_visited s n = filter (fun k => k mod s =? 0) (zrange n).
Proof.
  intros Hs. unfold strided_visited. revert n.
  apply (zrange_ind (fun n => 0 <= n -> map (fun i => s * i) (zrange ((n + (s - 1)) / s)) = filter (fun k => k mod s =? 0) (zrange n))).
  - intros n Hn H. replace n with 0 by lia. rewrite (Z.div_small (0 + (s - 1))) by lia. reflexivity.
  - intros n Hn IH _. rewrite zrange_succ, filter_app, <- IH by lia. cbn [filter].
    pose proof (Z_div_mod_eq_full n s) as E. pose proof (Z.mod_pos_bound n s Hs) as M.
    set (q := n / s) in *. set (r := n mod s) in *. assert (0 <= q) by (apply Z.div_pos; lia).
    replace ((n + 1 + (s - 1)) / s) with (q + 1).
    + destruct (Z.eqb_spec r 0) as [R|R].
      * replace ((n + (s - 1)) / s) with q.
        -- rewrite zrange_succ, map_app by lia. cbn [map]. do 2 f_equal. lia.
        -- apply Z.div_unique with (s - 1); lia.
      * replace ((n + (s - 1)) / s) with (q + 1); [now rewrite app_nil_r|].
        apply Z.div_unique with (r - 1); lia.
    + apply Z.div_unique with r; lia.
Qed.
Lemma step_loop_eq k : forall c p, c < p -> step_loop k c p = Z.min (c + Z.of_nat k) p.
Proof.
  induction k as [|k IH]; intros c p H; cbn [step_loop]; [lia|]. destruct (Z.eqb_spec (c + 1) p); [lia|]. rewrite IH by lia. lia.
Qed.
Lemma pointer_visits s : 0 < s -> forall k c p, 0 <= c <= p -> c mod s = 0 \/ c = p -> p - c <= Z.of_nat k -> forall f, (k < f)%nat ->
  pointer_visited f s c p = Some (filter (fun i => i mod s =? 0) (zfrom c (p - c))).
Proof.
  intros Hs. induction k as [|k IH]; intros c p Hc Hm Hk f Hf; (destruct f as [|f]; [lia|]); cbn [pointer_visited].
  - rewrite (proj2 (Z.eqb_eq c p)) by lia. now rewrite zfrom_nil by lia.
  - destruct (Z.eqb_spec c p) as [E|E]; [now rewrite zfrom_nil by lia|].
    destruct Hm as [Hm|]; [|contradiction].
    rewrite step_loop_eq by lia. rewrite Z2Nat.id by lia.
    rewrite (IH (Z.min (c + s) p)).
    + cbn [option_map]. f_equal. set (d := Z.min (c + s) p). replace (p - c) with ((d - c) + (p - d)) by lia.
      rewrite <- zfrom_app by lia. replace (c + (d - c)) with d by lia. rewrite filter_app.
      change (c :: filter (fun i => i mod s =? 0) (zfrom d (p - d))) with ([c] ++ filter (fun i => i mod s =? 0) (zfrom d (p - d))).
      f_equal. replace (d - c) with (1 + (d - c - 1)) by lia. rewrite <- zfrom_app by lia. rewrite filter_app.
      rewrite (filter_none _ (zfrom (c + 1) _)).
      * unfold zfrom. change (zrange 1) with [0]. cbn [map filter]. rewrite Z.add_0_r, Hm. reflexivity.
      * intros i Hi. apply In_zfrom in Hi. apply Z.eqb_neq. intros Z0.
        apply Z.mod_divide in Hm; [|lia]. apply Z.mod_divide in Z0; [|lia]. destruct Hm as (a & ->), Z0 as (b & ->).
        assert (a < b) by nia. assert (b < a + 1) by nia. lia.
    + lia.
    + destruct (Z.min_spec (c + s) p) as [[L ->]|[L ->]]; [left|right; reflexivity].
      replace (c + s) with (c + 1 * s) by ring. now rewrite Z.mod_add by lia.
    + lia.
    + lia.
Qed.
Lemma pointer_range s n : 0 < s -> 0 <= n ->
  exists f0, forall f, (f0 <= f)%nat -> pointer_visited f s 0 n = Some (filter (fun k => k mod s =? 0) (zrange n)).
Proof.
  intros Hs Hn. exists (S (Z.to_nat n)). intros f Hf. rewrite (pointer_visits s Hs (Z.to_nat n)) by (try lia; left; apply Z.mod_0_l; lia).
  now rewrite Z.sub_0_r, zfrom_0.
Qed.
Lemma pointer_advances s : 0 < s -> forall k c p, 0 <= c < p -> pointer_advance k s c p = Ok (Z.min (c + Z.of_nat k * s) p).
Proof.
  intros Hs. induction k as [|k IH]; intros c p H; cbn [pointer_advance]; [f_equal; lia|].
  unfold pointer_step. rewrite (proj2 (Z.eqb_neq c p)) by lia. cbn [bind]. rewrite step_loop_eq, Z2Nat.id by lia.
  destruct (Z.eqb_spec (Z.min (c + s) p) p) as [E|E].
  - f_equal. nia.
  - rewrite IH by lia. f_equal. nia.
Qed.
Lemma pointer_advance_end k s p : pointer_advance (S k) s p p = Err PyException.
Proof. cbn [pointer_advance]. unfold pointer_step. now rewrite Z.eqb_refl. Qed.
