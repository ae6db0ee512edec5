From Coq Require Import List Bool Arith ZArith Lia.
From Verif Require Import TsdModel TsdSpec.
Import ListNotations.
Arguments Nat.ltb : simpl never.
Arguments Nat.eqb : simpl never.

(** number of non-null slots *)
Definition nonnull (f : nat -> ptr) : nat :=
  length (filter (fun t => match f t with Some _ => true | None => false end) (seq 0 NTHREADS)).

Record inv (h : list op) (t : table) : Prop := {
  inv_lt : nkeys h <= NKEYS;
  inv_new : forall k, nkeys h <= k -> k < NKEYS -> count (t k) = 0%Z /\ forall i, data (t k) i = None;
  inv_cnt : forall k, k < nkeys h -> count (t k) = (1 + Z.of_nat (nonnull (data (t k))))%Z;
  inv_dat : forall k i, k < nkeys h -> i < NTHREADS -> data (t k) i = held h i k;
  inv_des : forall k, k < nkeys h -> destructor (t k) = destr_of h k;
  inv_held : forall k i, nkeys h <= k -> held h i k = None
}.

Lemma nonnull_ext f g : (forall i, i < NTHREADS -> f i = g i) -> nonnull f = nonnull g.
Proof.
  intro H. unfold nonnull. f_equal. apply filter_ext_in. intros a Ha.
  apply in_seq in Ha. rewrite H by lia. reflexivity.
Qed.

Lemma filter_count_upd (f : nat -> ptr) i v n a :
  a <= i < a + n ->
  (length (filter (fun t => match updf f i v t with Some _ => true | None => false end) (seq a n))
   + (match f i with Some _ => 1 | None => 0 end)
  = length (filter (fun t => match f t with Some _ => true | None => false end) (seq a n))
   + (match v with Some _ => 1 | None => 0 end))%nat.
Proof.
  revert a. induction n as [|n IH]; intros a H; [lia|]. cbn [seq filter].
  destruct (Nat.eq_dec a i) as [->|Hne].
  - assert (E : filter (fun t => match updf f i v t with Some _ => true | None => false end) (seq (S i) n)
              = filter (fun t => match f t with Some _ => true | None => false end) (seq (S i) n)).
    { apply filter_ext_in. intros x Hx. apply in_seq in Hx. unfold updf.
      destruct (Nat.eqb_spec x i); [lia|reflexivity]. }
    rewrite E. unfold updf at 1. rewrite Nat.eqb_refl.
    destruct v, (f i); cbn [length]; lia.
  - unfold updf at 1. destruct (Nat.eqb_spec a i); [lia|].
    specialize (IH (S a) ltac:(lia)).
    destruct (f a); cbn [length]; lia.
Qed.

Lemma nonnull_upd f i v : i < NTHREADS ->
  (nonnull (updf f i v) + (match f i with Some _ => 1 | None => 0 end)
   = nonnull f + (match v with Some _ => 1 | None => 0 end))%nat.
Proof. intro H. unfold nonnull. apply filter_count_upd. lia. Qed.

Lemma updt_same t k e : updt t k e k = e.
Proof. unfold updt. now rewrite Nat.eqb_refl. Qed.
Lemma updt_other t k e j : j <> k -> updt t k e j = t j.
Proof. intro H. unfold updt. destruct (Nat.eqb_spec j k); congruence. Qed.
Lemma updf_same {A} (f : nat -> A) k e : updf f k e k = e.
Proof. unfold updf. now rewrite Nat.eqb_refl. Qed.
Lemma updf_other {A} (f : nat -> A) k e j : j <> k -> updf f k e j = f j.
Proof. intro H. unfold updf. destruct (Nat.eqb_spec j k); congruence. Qed.

Lemma inv_init : inv [] init.
Proof.
  constructor; cbn; intros; try lia; auto.
Qed.

(** create *)
Lemma create_loop_spec t d m : forall n k,
  k <= m -> (forall j, k <= j -> j < m -> count (t j) <> 0%Z) -> m < k + n -> count (t m) = 0%Z ->
  create_loop t d n k = (updt t m (mkE (count (t m) + 1) d (data (t m))), Key m).
Proof.
  induction n as [|n IH]; intros k Hk Hnz Hlt Hz; [lia|]. cbn [create_loop].
  destruct (Nat.eq_dec k m) as [->|Hne].
  - rewrite Hz. reflexivity.
  - specialize (Hnz k) as Hk0. destruct (Z.eqb_spec (count (t k)) 0) as [E|_]; [exfalso; apply Hk0; lia|].
    apply IH; auto; try lia. intros j Hj. apply Hnz. lia.
Qed.
Lemma create_loop_full t d : forall n k,
  (forall j, k <= j -> j < k + n -> count (t j) <> 0%Z) -> create_loop t d n k = (t, EAGAIN).
Proof.
  induction n as [|n IH]; intros k Hnz; [reflexivity|]. cbn [create_loop].
  destruct (Z.eqb_spec (count (t k)) 0) as [E|_]; [exfalso; apply (Hnz k); lia|].
  apply IH. intros j Hj Hj'. apply Hnz; lia.
Qed.

Lemma cnt_pos h t k : inv h t -> k < nkeys h -> count (t k) <> 0%Z.
Proof. intros H Hk. rewrite (inv_cnt _ _ H) by exact Hk. lia. Qed.

Lemma step_create h t d : inv h t ->
  inv (Create d :: h) (fst (step t (Create d))) /\ snd (step t (Create d)) = expected h (Create d).
Proof.
  intro H. cbn [step expected]. pose proof (inv_lt _ _ H) as Hlt.
  destruct (Nat.ltb_spec (nkeys h) NKEYS) as [L|L].
  - destruct (inv_new _ _ H (nkeys h) (le_n _) L) as [Hz Hd].
    rewrite (create_loop_spec t d (nkeys h)); auto; try lia.
    2:{ intros j _ Hj. eapply cnt_pos; eauto. }
    cbn [fst snd]. split; [|reflexivity].
    assert (N : nkeys (Create d :: h) = S (nkeys h)).
    { cbn [nkeys]. destruct (Nat.ltb_spec (nkeys h) NKEYS); lia. }
    constructor; rewrite ?N.
    + lia.
    + intros k Hk Hk2. rewrite updt_other by lia. apply (inv_new _ _ H); lia.
    + intros k Hk. destruct (Nat.eq_dec k (nkeys h)) as [->|Hne].
      * rewrite updt_same. cbn [count data]. rewrite Hz.
        assert (nonnull (data (t (nkeys h))) = 0).
        { rewrite (nonnull_ext _ (fun _ => None)) by (intros; apply Hd). reflexivity. }
        lia.
      * rewrite updt_other by lia. apply (inv_cnt _ _ H). lia.
    + intros k i Hk Hi. cbn [held]. destruct (Nat.eq_dec k (nkeys h)) as [->|Hne].
      * rewrite updt_same. cbn [data]. rewrite Hd. symmetry. apply (inv_held _ _ H). lia.
      * rewrite updt_other by lia. apply (inv_dat _ _ H); lia.
    + intros k Hk. cbn [destr_of]. destruct (Nat.ltb_spec (nkeys h) NKEYS) as [_|]; [|lia].
      destruct (Nat.eqb_spec k (nkeys h)) as [->|Hne].
      * rewrite updt_same. reflexivity.
      * rewrite updt_other by lia. cbn. apply (inv_des _ _ H). lia.
    + intros k i Hk. cbn [held]. apply (inv_held _ _ H). lia.
  - rewrite create_loop_full.
    2:{ intros j _ Hj. eapply cnt_pos; eauto. lia. }
    cbn [fst snd]. split; [|reflexivity].
    assert (N : nkeys (Create d :: h) = nkeys h).
    { cbn [nkeys]. destruct (Nat.ltb_spec (nkeys h) NKEYS); lia. }
    destruct H as [H1 H2 H3 H4 H5 H6].
    constructor; rewrite ?N; auto.
    intros k Hk. cbn [destr_of]. destruct (Nat.ltb_spec (nkeys h) NKEYS); [lia|]. cbn. auto.
Qed.

Lemma step_set h t i k v : inv h t -> i < NTHREADS ->
  inv (Set_ i k v :: h) (fst (step t (Set_ i k v))) /\ snd (step t (Set_ i k v)) = expected h (Set_ i k v).
Proof.
  intros H Hi. cbn [step expected]. pose proof (inv_lt _ _ H) as Hlt.
  destruct (Nat.ltb_spec k (nkeys h)) as [L|L].
  - unfold set_specific. destruct (Nat.ltb_spec k NKEYS) as [_|]; [|lia].
    pose proof (inv_cnt _ _ H k L) as Hc.
    destruct (Z.eqb_spec (count (t k)) 0) as [E|_]; [lia|]. cbn [negb].
    destruct (Nat.ltb_spec i NTHREADS) as [_|]; [|lia]. cbn [fst snd].
    split; [|reflexivity].
    constructor; cbn [nkeys].
    + exact Hlt.
    + intros j Hj Hj2. rewrite updt_other by lia. now apply (inv_new _ _ H).
    + intros j Hj. destruct (Nat.eq_dec j k) as [->|Hne].
      * rewrite updt_same. cbn [count data]. pose proof (nonnull_upd (data (t k)) i v Hi) as Hn.
        destruct (data (t k) i), v; lia.
      * rewrite updt_other by lia. now apply (inv_cnt _ _ H).
    + intros j i' Hj Hi'. cbn [held]. destruct (Nat.ltb_spec k (nkeys h)) as [_|]; [|lia].
      rewrite andb_true_r.
      destruct (Nat.eqb_spec k j) as [->|Hne].
      * rewrite updt_same. cbn [data].
        destruct (Nat.eqb_spec i i') as [->|Hni].
        -- cbn. now rewrite updf_same.
        -- cbn. rewrite updf_other by lia. now apply (inv_dat _ _ H).
      * rewrite andb_false_r. rewrite updt_other by lia. now apply (inv_dat _ _ H).
    + intros j Hj. cbn [destr_of]. destruct (Nat.eq_dec j k) as [->|Hne].
      * rewrite updt_same. now apply (inv_des _ _ H).
      * rewrite updt_other by lia. now apply (inv_des _ _ H).
    + intros j i' Hj. cbn [held]. destruct (Nat.eqb_spec k j); [lia|]. rewrite andb_false_r. cbn.
      now apply (inv_held _ _ H).
  - assert (E : set_specific t i k v = (t, EINVAL)).
    { unfold set_specific. destruct (Nat.ltb_spec k NKEYS) as [Hk|]; [|reflexivity].
      destruct (inv_new _ _ H k L Hk) as [Hz _]. cbn zeta. rewrite Hz. reflexivity. }
    rewrite E. cbn [fst snd]. split; [|reflexivity].
    assert (Hh : forall j i', held (Set_ i k v :: h) i' j = held h i' j).
    { intros j i'. cbn [held]. destruct (Nat.ltb_spec k (nkeys h)); [lia|]. now rewrite andb_false_r. }
    destruct H as [H1 H2 H3 H4 H5 H6].
    constructor; cbn [nkeys destr_of]; auto.
    + intros. rewrite Hh. auto.
    + intros. rewrite Hh. auto.
Qed.

Lemma step_get h t i k : inv h t -> i < NTHREADS -> k < NKEYS ->
  inv (Get i k :: h) (fst (step t (Get i k))) /\ snd (step t (Get i k)) = expected h (Get i k).
Proof.
  intros H Hi Hk. cbn [step fst snd expected]. split.
  - destruct H as [H1 H2 H3 H4 H5 H6]. constructor; auto.
  - unfold get_specific.
    destruct (Nat.ltb_spec k NKEYS) as [_|]; [|lia]. destruct (Nat.ltb_spec i NTHREADS) as [_|]; [|lia].
    cbn [andb]. destruct (Nat.lt_ge_cases k (nkeys h)) as [L|L].
    + rewrite (inv_dat _ _ H) by assumption. destruct (held h i k); [|reflexivity].
      pose proof (cnt_pos h t k H L). destruct (Z.eqb_spec (count (t k)) 0); [lia|]. reflexivity.
    + destruct (inv_new _ _ H k L Hk) as [_ Hd]. rewrite Hd. now rewrite (inv_held _ _ H).
Qed.

(** cleanup *)
Lemma cleanup_loop_spec tid m : forall n k t,
  (forall j, k <= j -> j < m -> count (t j) <> 0%Z) ->
  (forall j, m <= j -> j < k + n -> data (t j) tid = None) ->
  m <= k + n -> 
  let r := cleanup_loop t tid n k in
  (forall j, j < k \/ k + n <= j -> fst r j = t j) /\
  (forall j, k <= j -> j < k + n ->
     destructor (fst r j) = destructor (t j) /\
     (forall i, data (fst r j) i = if i =? tid then None else data (t j) i) /\
     count (fst r j) = (count (t j) - match data (t j) tid with Some _ => 1 | None => 0 end)%Z) /\
  snd r = flat_map (fun j => match data (t j) tid, destructor (t j) with
                             | Some p, Some f => [(f, p)] | _, _ => [] end) (seq k (m - k)).
Proof.
  induction n as [|n IH]; intros k t Hnz Hnull Hm.
  - cbn. replace (m - k) with 0 by lia. repeat split; auto; lia.
  - cbn [cleanup_loop].
    destruct (Nat.lt_ge_cases k m) as [L|L].
    + pose proof (Hnz k (le_n _) L) as Hk. destruct (Z.eqb_spec (count (t k)) 0) as [|_]; [lia|]. cbn [negb].
      replace (m - k) with (S (m - S k)) by lia. cbn [seq flat_map].
      destruct (data (t k) tid) as [p|] eqn:D.
      * set (t1 := updt t k (mkE (count (t k) - 1) (destructor (t k)) (updf (data (t k)) tid None))).
        specialize (IH (S k) t1).
        assert (O : forall j, j <> k -> t1 j = t j) by (intros; apply updt_other; auto).
        assert (S1 : t1 k = mkE (count (t k) - 1) (destructor (t k)) (updf (data (t k)) tid None))
          by apply updt_same.
        destruct IH as (A & B & C).
        { intros j Hj Hj2. rewrite O by lia. apply Hnz; lia. }
        { intros j Hj Hj2. rewrite O by lia. apply Hnull; lia. }
        { lia. }
        destruct (cleanup_loop t1 tid n (S k)) as [t2 cs]. cbn [fst snd] in *.
        split; [|split].
        -- intros j Hj. rewrite A by lia. apply O. lia.
        -- intros j Hj Hj2. destruct (Nat.eq_dec j k) as [->|Hne].
           ++ rewrite A by lia. rewrite S1. cbn [destructor data count]. repeat split.
              rewrite D. reflexivity.
           ++ rewrite <- (O j Hne). apply B; lia.
        -- rewrite C. assert (E : flat_map (fun j => match data (t1 j) tid, destructor (t1 j) with
                             | Some p0, Some f => [(f, p0)] | _, _ => [] end) (seq (S k) (m - S k)) =
              flat_map (fun j => match data (t j) tid, destructor (t j) with
                             | Some p0, Some f => [(f, p0)] | _, _ => [] end) (seq (S k) (m - S k))).
           { rewrite !flat_map_concat_map. f_equal. apply map_ext_in. intros x Hx. apply in_seq in Hx.
             now rewrite O by lia. }
           rewrite E. destruct (destructor (t k)); reflexivity.
      * destruct (IH (S k) t) as (A & B & C).
        { intros j Hj Hj2. apply Hnz; lia. }
        { intros j Hj Hj2. apply Hnull; lia. }
        { lia. }
        split; [|split].
        -- intros j Hj. apply A. lia.
        -- intros j Hj Hj2. destruct (Nat.eq_dec j k) as [->|Hne]; [|apply B; lia].
           rewrite A by lia. repeat split.
           ++ intro i. destruct (Nat.eqb_spec i tid) as [->|]; auto.
           ++ rewrite D. lia.
        -- rewrite C. reflexivity.
    + pose proof (Hnull k L ltac:(lia)) as D.
      assert (E : (if negb (count (t k) =? 0)%Z
               then match data (t k) tid with
                    | Some p =>
                        let t1 := updt t k (mkE (count (t k) - 1) (destructor (t k)) (updf (data (t k)) tid None)) in
                        let c := match destructor (t k) with Some f => [(f, p)] | None => [] end in
                        let '(t2, cs) := cleanup_loop t1 tid n (S k) in (t2, c ++ cs)
                    | None => cleanup_loop t tid n (S k)
                    end
               else cleanup_loop t tid n (S k)) = cleanup_loop t tid n (S k)).
      { rewrite D. destruct (negb _); reflexivity. }
      cbn zeta in *. rewrite E. clear E.
      destruct (IH (S k) t) as (A & B & C).
      { intros j Hj Hj2. lia. }
      { intros j Hj Hj2. apply Hnull; lia. }
      { lia. }
      split; [|split].
      * intros j Hj. apply A. lia.
      * intros j Hj Hj2. destruct (Nat.eq_dec j k) as [->|Hne]; [|apply B; lia].
        rewrite A by lia. repeat split.
        -- intro i. destruct (Nat.eqb_spec i tid) as [->|]; auto.
        -- rewrite D. lia.
      * rewrite C. replace (m - S k) with 0 by lia. replace (m - k) with 0 by lia. reflexivity.
Qed.

Lemma step_cleanup h t i : inv h t -> i < NTHREADS ->
  inv (Cleanup i :: h) (fst (step t (Cleanup i))) /\ snd (step t (Cleanup i)) = expected h (Cleanup i).
Proof.
  intros H Hi. cbn [step]. destruct (Nat.ltb_spec i NTHREADS) as [_|]; [|lia].
  pose proof (inv_lt _ _ H) as Hlt.
  destruct (cleanup_loop_spec i (nkeys h) NKEYS 0 t) as (A & B & C).
  { intros j _ Hj. eapply cnt_pos; eauto. }
  { intros j Hj Hj2. apply (inv_new _ _ H); lia. }
  { lia. }
  destruct (cleanup_loop t i NKEYS 0) as [t2 cs]. cbn [fst snd] in *.
  split.
  - constructor; cbn [nkeys].
    + exact Hlt.
    + intros k Hk Hk2. destruct (B k) as (B1 & B2 & B3); [lia|lia|].
      destruct (inv_new _ _ H k Hk Hk2) as [Hz Hd]. split.
      * rewrite B3, Hd, Hz. reflexivity.
      * intro j. rewrite B2. destruct (Nat.eqb_spec j i); auto.
    + intros k Hk. destruct (B k) as (B1 & B2 & B3); [lia|lia|].
      rewrite B3. rewrite (inv_cnt _ _ H k Hk).
      pose proof (nonnull_upd (data (t k)) i None Hi) as Hn.
      rewrite (nonnull_ext (data (t2 k)) (updf (data (t k)) i None)).
      2:{ intros j Hj. rewrite B2. reflexivity. }
      destruct (data (t k) i); lia.
    + intros k j Hk Hj. destruct (B k) as (B1 & B2 & B3); [lia|lia|].
      rewrite B2. cbn [held]. rewrite (Nat.eqb_sym i j). destruct (Nat.eqb_spec j i); [reflexivity|].
      now apply (inv_dat _ _ H).
    + intros k Hk. destruct (B k) as (B1 & B2 & B3); [lia|lia|].
      rewrite B1. cbn [destr_of]. now apply (inv_des _ _ H).
    + intros k j Hk. cbn [held]. destruct (Nat.eqb_spec i j); [reflexivity|]. now apply (inv_held _ _ H).
  - cbn [expected]. f_equal. rewrite C. rewrite Nat.sub_0_r.
    rewrite !flat_map_concat_map. f_equal. apply map_ext_in. intros k Hk. apply in_seq in Hk.
    rewrite (inv_dat _ _ H) by lia. rewrite (inv_des _ _ H) by lia. reflexivity.
Qed.

Lemma step_ok h t o : inv h t -> safe o ->
  inv (o :: h) (fst (step t o)) /\ snd (step t o) = expected h o.
Proof.
  destruct o as [d|i k v|i k|i]; cbn [safe]; intros.
  - now apply step_create.
  - now apply step_set.
  - apply step_get; tauto.
  - now apply step_cleanup.
Qed.

Lemma run_refines os : forall h t, inv h t -> Forall safe os -> run t os = answers h os.
Proof.
  induction os as [|o os IH]; intros h t H Hs; [reflexivity|].
  inversion Hs as [|? ? Ho Hos]; subst. cbn [run answers].
  destruct (step_ok h t o H Ho) as [A B]. destruct (step t o) as [t' r]. cbn [fst snd] in *. subst r.
  f_equal. now apply IH.
Qed.

Lemma run_app os o t : run t (os ++ [o]) = run t os ++ [snd (step (final t os) o)].
Proof.
  revert t. induction os as [|a os IH]; intro t; cbn [app run final fold_left].
  - destruct (step t o). reflexivity.
  - destruct (step t a) as [t' r] eqn:E. cbn [fst]. rewrite IH. reflexivity.
Qed.

Lemma final_inv os : forall h t, inv h t -> Forall safe os -> inv (rev os ++ h) (final t os).
Proof.
  induction os as [|o os IH]; intros h t H Hs; [exact H|].
  inversion Hs as [|? ? Ho Hos]; subst. cbn [final fold_left rev].
  rewrite <- app_assoc. cbn [app]. apply IH; [|exact Hos]. now apply step_ok.
Qed.

Lemma next_answer os o : Forall safe os -> safe o ->
  snd (step (final init os) o) = expected (rev os) o.
Proof.
  intros Hs Ho. pose proof (final_inv os [] init inv_init Hs) as H. rewrite app_nil_r in H.
  now apply step_ok.
Qed.

(** once *)
Lemma once_iter n st : fst st = false -> 0 < n -> Nat.iter n once st = (true, S (snd st)).
Proof.
  destruct st as [d c]. cbn. intros -> H. destruct n as [|n]; [lia|]. clear H.
  induction n as [|n IH]; [reflexivity|]. change (Nat.iter (S (S n)) once (false, c)) with (once (Nat.iter (S n) once (false, c))).
  rewrite IH. reflexivity.
Qed.
