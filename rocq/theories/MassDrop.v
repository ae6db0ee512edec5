(** Proofs about dropping phases while a liquid is present. *)
From Coq Require Import Reals List Lia Lra Bool Arith.
From Verif Require Import MassModel MassSpec MassProofs MassOps.
Open Scope R_scope.

Lemma loop_S {S} n f (s : S) : loop (Datatypes.S n) f s = f n (loop n f s).
Proof. reflexivity. Qed.
Lemma loop_fst {A B} n (f : nat -> A * B -> A * B) s :
  loop n f s = (fst (loop n f s), snd (loop n f s)).
Proof. destruct (loop n f s); reflexivity. Qed.

(** number of indices below n with property p *)
Fixpoint cnt (n : nat) (p : nat -> bool) : nat :=
  match n with O => O | S m => (cnt m p + if p m then 1 else 0)%nat end.
Lemma cnt_ext n p p' : (forall x, (x < n)%nat -> p x = p' x) -> cnt n p = cnt n p'.
Proof. induction n; cbn; intros H; auto. rewrite IHn, H; auto. Qed.
Lemma cnt_neg n p : (cnt n p + cnt n (fun x => negb (p x)) = n)%nat.
Proof. induction n; cbn; auto. destruct (p n); cbn; lia. Qed.
Lemma cnt_le n p : (cnt n p <= n)%nat.
Proof. pose proof (cnt_neg n p). lia. Qed.

Section Drop.
Variable tab : Tab.
Hypothesis Lay : layout tab.
Variable q : Quantity.
Hypothesis Agr : agrees tab q.
Variables (beta : R) (ox : nat).
Definition measure (s : St) : R := amount tab q s - beta * bulk s ox.
Notation M := measure.
Variable corr : Corr.
Variable phaseTest : nat -> (nat -> R) -> bool.
Variable redox : (nat -> R) -> nat -> R.
Variable fo : bool.
Hypothesis RedoxOk : fo = true -> forall s, (0 < nLiq s)%nat -> M (redoxLiquid tab redox 0 s) = M s.

(** what stays the same while solids are dropped into a liquid *)
Definition okSt (s0 s : St) : Prop :=
  M s = M s0 /\ hasLiquid s = true /\ nLiq s = nLiq s0 /\ (0 < nLiq s)%nat /\ fo2On s = fo.

Ltac csp := repeat match goal with |- _ /\ _ => split | |- counts _ _ => unfold counts | |- rest _ _ => unfold rest end; try reflexivity.

Lemma okSt_frame s0 s s' : okSt s0 s -> M s' = M s -> hasLiquid s' = hasLiquid s -> nLiq s' = nLiq s ->
  fo2On s' = fo2On s -> okSt s0 s'.
Proof. unfold okSt. intros (A & B & C & D & E) F G H I. rewrite F, G, H, I. auto. Qed.
Lemma okSt_self s0 s : okSt s0 s -> okSt s s.
Proof. unfold okSt. intuition congruence. Qed.
Lemma okSt_trans a b c : okSt a b -> okSt b c -> okSt a c.
Proof. unfold okSt. intuition congruence. Qed.
Hint Resolve okSt_self : core.

Definition inBlock (i c : nat) : Prop := (i <= c <= i + na tab i)%nat.

Lemma M_ext s s' : inSolids tab q s' + inLiquids tab q s' = inSolids tab q s + inLiquids tab q s ->
  bulk s' = bulk s -> M s' = M s.
Proof. unfold measure, amount. intros E B. rewrite B. lra. Qed.

Lemma redox_step s0 s : okSt s0 s ->
  let s' := if fo2On s && hasLiquid s then redoxLiquid tab redox 0 s else s in
  okSt s0 s' /\ solC s' = solC s /\ nSol s' = nSol s.
Proof.
  intros O. pose proof O as (A & B & C & D & E). rewrite E, B. destruct fo eqn:F; cbn [andb].
  - cbn zeta. csp. apply (okSt_frame s0 s); auto.
  - cbn zeta. csp; auto.
Qed.

(** one component row of a solution *)
Definition dropRow (i ns j : nat) (sd : St * (nat -> R)) : St * (nat -> R) :=
  let '(s, delta) := sd in
  let x := solC s (i+1+j)%nat ns in
  let delta' := if hasLiquid s then delta else fun o => delta o - solToOx tab (i+1+j) o * x in
  let s' := if hasLiquid s then addLiq tab 0 (fun k => solToLiq tab (i+1+j) k * x) s else s in
  (setSol (i+1+j) ns 0 s', delta').

Lemma dropRow_liq i ns j s d : hasLiquid s = true ->
  fst (dropRow i ns j (s, d)) =
  setSol (i+1+j) ns 0 (addLiq tab 0 (fun k => solToLiq tab (i+1+j) k * solC s (i+1+j)%nat ns) s).
Proof. intros H. unfold dropRow. rewrite H. reflexivity. Qed.

Lemma dropRows i ns s0 s d0 : (i < npc tab)%nat -> isPhase tab i = true -> (1 < na tab i)%nat ->
  okSt s0 s -> (ns < nSol s i)%nat ->
  forall k, (k <= na tab i)%nat ->
  let t := fst (loop k (dropRow i ns) (s, d0)) in
  okSt s0 t /\ nSol t = nSol s /\
  (forall c, (i < c <= i + k)%nat -> solC t c ns = 0) /\
  (forall c x, x <> ns \/ (c <= i)%nat \/ (i + k < c)%nat -> solC t c x = solC s c x).
Proof.
  intros Hi Pi N O Hns. induction k; intros Hk.
  - cbn. csp; auto. intros; lia.
  - destruct (IHk ltac:(lia)) as (A & B & C & D). clear IHk. cbn zeta in *.
    rewrite loop_S. rewrite loop_fst. set (t := fst (loop k (dropRow i ns) (s, d0))) in *.
    pose proof A as (A1 & A2 & A3 & A4 & A5). rewrite dropRow_liq by exact A2.
    set (c := (i+1+k)%nat).
    assert (Rw : componentRow tab i c) by (apply row_in; auto; lia).
    assert (Hc : (c < npc tab)%nat) by (eapply row_lt; eauto).
    csp; auto; try exact B.
    + apply (okSt_frame s0 t); auto. apply M_ext; [|reflexivity].
      rewrite (inSolids_setSol tab q Lay _ i) by auto.
      match goal with |- context [inLiquids tab q (setSol ?a ?b ?v ?u)] =>
        change (inLiquids tab q (setSol a b v u)) with (inLiquids tab q u) end.
      rewrite inLiquids_addLiq by (change (0 < nLiq t)%nat; lia).
      rewrite (agrees_scal tab q _ _ Agr) by auto.
      match goal with |- context [inSolids tab q (addLiq ?a ?b ?v ?u)] =>
        change (inSolids tab q (addLiq a b v u)) with (inSolids tab q u);
        change (nSol (addLiq a b v u)) with (nSol u);
        change (solC (addLiq a b v u)) with (solC u) end.
      rewrite B. destruct (Nat.ltb_spec ns (nSol s i)); [|lia]. fold c. ring.
    + intros c' Hc'. destruct (Nat.eq_dec c' c) as [->|Ne].
      * cbn. apply upd2_eq.
      * cbn. rewrite upd2_row by auto. apply C. unfold c in Ne. lia.
    + intros c' x Hx. destruct (Nat.eq_dec c' c) as [->|Ne].
      * cbn. rewrite upd2_col by (unfold c in Hx; lia). apply D. left. unfold c in Hx. lia.
      * cbn. rewrite upd2_row by auto. apply D. lia.
Qed.

Definition small (s : St) (i x : nat) : bool := if Rlt_dec (solC s i x) MASSOUT then true else false.

(** one column of a solution *)
Lemma dropColumn_solution i ns s0 s d : (i < npc tab)%nat -> isPhase tab i = true -> (1 < na tab i)%nat ->
  okSt s0 s -> (ns < nSol s i)%nat ->
  let '(s', d') := dropColumn tab corr phaseTest redox i ns (s, d) in
  okSt s0 s' /\ nSol s' = nSol s /\
  d' = (d + if small s i ns then 1 else 0)%nat /\
  (small s i ns = true -> forall c, inBlock i c -> solC s' c ns = 0) /\
  (forall c x, small s i ns = false \/ x <> ns \/ ~ inBlock i c -> solC s' c x = solC s c x).
Proof.
  intros Hi Pi N O Hns. unfold dropColumn.
  destruct (Nat.ltb_spec ns (nSol s i)); [|lia]. cbn [negb].
  unfold small. destruct (Rlt_dec (solC s i ns) MASSOUT) as [Sm|Sm].
  2:{ csp; auto; first [lia | discriminate]. }
  destruct (Nat.eqb_spec (na tab i) 1); [lia|].
  fold (dropRow i ns).
  set (s1 := setSol i ns 0 s).
  assert (O1 : okSt s0 s1).
  { apply (okSt_frame s0 s); auto. apply M_ext; [|reflexivity].
    unfold s1. rewrite inSolids_setTotal by auto. reflexivity. }
  pose proof (dropRows i ns s0 s1 (fun _ => 0) Hi Pi N O1 Hns (na tab i) (le_n _)) as H2. cbn zeta in H2.
  rewrite (loop_fst (na tab i)). set (t := fst (loop (na tab i) (dropRow i ns) (s1, fun _ => 0))) in *.
  destruct H2 as (A & B & C & D).
  assert (HL : hasLiquid t = true) by (destruct A as (_ & A & _); exact A).
  rewrite HL.
  destruct (redox_step s0 t A) as (R1 & R2 & R3). cbn zeta in *. rewrite HL in *.
  set (t' := if fo2On t && true then redoxLiquid tab redox 0 t else t) in *.
  csp; auto.
  - rewrite R3. exact B.
  - lia.
  - intros _ c Hc. rewrite R2. destruct (Nat.eq_dec c i) as [->|Ne].
    + rewrite D by (right; lia). unfold s1. cbn. apply upd2_eq.
    + apply C. unfold inBlock in Hc. lia.
  - intros c x Hx. rewrite R2. destruct Hx as [Hx|Hx]; [discriminate|].
    unfold inBlock in Hx. destruct (Nat.eq_dec c i) as [->|Ne].
    + rewrite D by (right; lia). unfold s1. cbn. apply upd2_col. lia.
    + rewrite D by lia. unfold s1. cbn. apply upd2_row. lia.
Qed.

(** all columns of a solution *)
Lemma dropColumns_solution i s : (i < npc tab)%nat -> isPhase tab i = true -> (1 < na tab i)%nat ->
  okSt s s ->
  forall k, (k <= nSol s i)%nat ->
  let '(t, d) := loop k (dropColumn tab corr phaseTest redox i) (s, 0%nat) in
  okSt s t /\ nSol t = nSol s /\ d = cnt k (small s i) /\
  (forall x c, (x < k)%nat -> small s i x = true -> inBlock i c -> solC t c x = 0) /\
  (forall c x, (k <= x)%nat \/ small s i x = false \/ ~ inBlock i c -> solC t c x = solC s c x).
Proof.
  intros Hi Pi N O. induction k; intros Hk.
  - cbn. csp; auto. intros; lia.
  - specialize (IHk ltac:(lia)). rewrite loop_S.
    destruct (loop k (dropColumn tab corr phaseTest redox i) (s, 0%nat)) as [t d].
    destruct IHk as (A & B & C & D & E).
    pose proof (dropColumn_solution i k s t d Hi Pi N A ltac:(rewrite B; lia)) as H.
    destruct (dropColumn tab corr phaseTest redox i k (t, d)) as [t' d'].
    destruct H as (A' & B' & C' & D' & E').
    assert (Sm : small t i k = small s i k).
    { unfold small. rewrite E by (left; lia). reflexivity. }
    rewrite Sm in *.
    csp.
    + exact A'.
    + congruence.
    + cbn. rewrite C', C. reflexivity.
    + intros x c Hx Hs Hc. destruct (Nat.eq_dec x k) as [->|Ne].
      * apply D'; auto.
      * rewrite E' by auto. apply D; auto. lia.
    + intros c x Hx. rewrite E'.
      * apply E. destruct Hx as [|[|]]; auto. left; lia.
      * destruct Hx as [|[|]]; auto; [right; left; lia|]. destruct (Nat.eq_dec x k) as [->|]; auto.
Qed.

(** closing the gaps *)
Lemma copyRows i k ns s : k <> ns -> forall m,
  let t := loop m (fun j s => setSol (i+1+j) k (solC s (i+1+j)%nat ns) s) s in
  (forall c x, x <> k \/ (c <= i)%nat \/ (i + m < c)%nat -> solC t c x = solC s c x) /\
  (forall c, (i < c <= i + m)%nat -> solC t c k = solC s c ns) /\
  nSol t = nSol s /\ nLiq t = nLiq s /\ liqC t = liqC s /\ rest s t.
Proof.
  intros Ne. induction m.
  - cbn. csp; auto. intros; lia.
  - cbn zeta in *. rewrite loop_S.
    set (t := loop m _ s) in *. destruct IHm as (A & B & C & D & E & F). csp; auto.
    + intros c x Hx. cbn. destruct (Nat.eq_dec c (i+1+m)) as [->|Nc].
      * rewrite upd2_col by lia. apply A. lia.
      * rewrite upd2_row by auto. apply A. lia.
    + intros c Hc. cbn. destruct (Nat.eq_dec c (i+1+m)) as [->|Nc].
      * rewrite upd2_eq. apply A. auto.
      * rewrite upd2_row by auto. apply B. lia.
    + destruct F as (? & _); auto.
    + destruct F as (_ & ? & _); auto.
    + destruct F as (_ & _ & ? & _); auto.
    + destruct F as (_ & _ & _ & ? & _); auto.
    + destruct F as (_ & _ & _ & _ & ? & _); auto.
    + destruct F as (_ & _ & _ & _ & _ & ? & _); auto.
    + destruct F as (_ & _ & _ & _ & _ & _ & ?); auto.
Qed.
(* copying a column onto itself changes nothing *)
Lemma copyRows_self i k s : forall m,
  let t := loop m (fun j s => setSol (i+1+j) k (solC s (i+1+j)%nat k) s) s in
  (forall c x, solC t c x = solC s c x) /\
  nSol t = nSol s /\ nLiq t = nLiq s /\ liqC t = liqC s /\ rest s t.
Proof.
  induction m.
  - cbn. csp; auto.
  - cbn zeta in *. rewrite loop_S.
    set (t := loop m _ s) in *. destruct IHm as (A & B & C & D & E). split; [|split; [|split; [|split]]]; auto.
    intros c x. cbn. unfold upd2.
    destruct (Nat.eqb_spec c (i+1+m)) as [->|]; destruct (Nat.eqb_spec x k) as [->|]; cbn; auto.
Qed.

Definition nonzero (s : St) (i x : nat) : bool := if Req_EM_T (solC s i x) 0 then false else true.

Lemma compact_spec i s : (1 < na tab i)%nat -> forall n,
  (forall x c, (x < n)%nat -> nonzero s i x = false -> inBlock i c -> solC s c x = 0) ->
  let '(t, k) := loop n (compactColumn tab i) (s, 0%nat) in
  k = cnt n (nonzero s i) /\ nSol t = nSol s /\ nLiq t = nLiq s /\ liqC t = liqC s /\ rest s t /\
  (forall c x, (n <= x)%nat \/ ~ inBlock i c -> solC t c x = solC s c x) /\
  (forall c, inBlock i c -> sum k (solC t c) = sum n (solC s c)).
Proof.
  intros N. induction n; intros Z.
  - cbn. csp; auto.
  - specialize (IHn ltac:(intros; apply Z; auto)). rewrite loop_S.
    destruct (loop n (compactColumn tab i) (s, 0%nat)) as [t k].
    destruct IHn as (K & A & B & C & D & E & F).
    assert (Kn : (k <= n)%nat) by (rewrite K; apply cnt_le).
    unfold compactColumn.
    assert (En : solC t i n = solC s i n) by (apply E; left; lia).
    destruct (Req_EM_T (solC t i n) 0) as [Z0|NZ].
    + assert (Nz : nonzero s i n = false).
      { unfold nonzero. destruct (Req_EM_T (solC s i n) 0); auto. congruence. }
      split; [cbn; rewrite Nz; lia|]. csp; auto; try (apply D).
      * intros c x [|]; apply E; auto; left; lia.
      * intros c Hc. cbn [sum]. rewrite F, (Z n c) by auto. ring.
    + assert (Nz : nonzero s i n = true).
      { unfold nonzero. destruct (Req_EM_T (solC s i n) 0); auto. congruence. }
      destruct (Nat.ltb_spec 1 (na tab i)); [|lia].
      set (t1 := setSol i k (solC t i n) t).
      destruct (Nat.eq_dec k n) as [->|Ne].
      * pose proof (copyRows_self i n t1 (na tab i)) as H1. cbn zeta in H1.
        set (t2 := loop _ _ t1) in *. destruct H1 as (A1 & A2 & A3 & A4 & A5).
        assert (S2 : forall c x, solC t2 c x = solC t c x).
        { intros. rewrite A1. unfold t1. cbn. unfold upd2.
          destruct (Nat.eqb_spec c i) as [->|]; destruct (Nat.eqb_spec x n) as [->|]; cbn; auto. }
        split; [cbn; rewrite Nz; lia|]. split; [now rewrite A2|]. split; [now rewrite A3|].
        split; [now rewrite A4|]. split; [eapply rest_trans; [exact D|exact A5]|]. split.
        -- intros c x [|]; rewrite S2; apply E; auto; left; lia.
        -- intros c Hc. cbn [sum].
           rewrite (sum_ext n (solC t2 c) (solC t c)) by (intros; apply S2).
           rewrite F, S2 by auto. f_equal. apply E. left; lia.
      * pose proof (copyRows i k n t1 Ne (na tab i)) as H1. cbn zeta in H1.
        set (t2 := loop _ _ t1) in *. destruct H1 as (A0 & A1 & A2 & A3 & A4 & A5).
        assert (S2 : forall c x, (x <> k \/ ~ inBlock i c) -> solC t2 c x = solC t c x).
        { intros c x Hx. unfold inBlock in Hx. destruct (Nat.eq_dec c i) as [->|Nc].
          - rewrite A0 by (right; lia). unfold t1. cbn. apply upd2_col. lia.
          - rewrite A0 by lia. unfold t1. cbn. apply upd2_row; auto. }
        assert (S3 : forall c, inBlock i c -> solC t2 c k = solC t c n).
        { intros c Hc. unfold inBlock in Hc. destruct (Nat.eq_dec c i) as [->|Nc].
          - rewrite A0 by (right; lia). unfold t1. cbn. apply upd2_eq.
          - rewrite A1 by lia. unfold t1. cbn. apply upd2_row; auto. }
        split; [cbn; rewrite Nz; lia|]. split; [now rewrite A2|]. split; [now rewrite A3|].
        split; [now rewrite A4|]. split; [eapply rest_trans; [exact D|exact A5]|]. split.
        -- intros c x [|]; rewrite S2 by (auto; left; lia); apply E; auto; left; lia.
        -- intros c Hc. cbn [sum].
           rewrite (sum_ext k (solC t2 c) (solC t c)) by (intros; apply S2; left; lia).
           rewrite F, S3 by auto. f_equal. apply E. left; lia.
Qed.

Lemma phaseSum_rows s i : (1 < na tab i)%nat -> forall n,
  sum n (solidAmount tab q s i) = sum (na tab i) (fun j => perSol q (i+1+j) * sum n (solC s (i+1+j)%nat)).
Proof.
  intros N n. unfold solidAmount. destruct (Nat.eqb_spec (na tab i) 1); [lia|].
  rewrite sum_swap. apply sum_ext. intros. apply sum_scal.
Qed.

Lemma dropSolid_solution i s : (i < npc tab)%nat -> isPhase tab i = true -> (1 < na tab i)%nat ->
  okSt s s ->
  let s' := dropSolid tab corr phaseTest redox i s in
  okSt s s' /\ (forall i', i' <> i -> nSol s' i' = nSol s i') /\
  nSol s' i = cnt (nSol s i) (fun x => negb (small s i x)) /\
  (forall c x, ~ inBlock i c -> solC s' c x = solC s c x).
Proof.
  intros Hi Pi N O. unfold dropSolid.
  pose proof (dropColumns_solution i s Hi Pi N O (nSol s i) (le_n _)) as H.
  destruct (loop (nSol s i) (dropColumn tab corr phaseTest redox i) (s, 0%nat)) as [t d].
  destruct H as (A & B & C & D & E).
  pose proof (cnt_neg (nSol s i) (small s i)) as CN.
  destruct (Nat.ltb_spec 0 d) as [Hd|Hd].
  2:{ cbn zeta. csp; auto.
      - intros; now rewrite B. - rewrite B. lia. }
  assert (Zs : forall x c, (x < nSol t i)%nat -> nonzero t i x = false -> inBlock i c -> solC t c x = 0).
  { intros x c Hx Hn Hc. rewrite B in Hx. destruct (small s i x) eqn:Sm.
    - apply D; auto.
    - exfalso. unfold nonzero in Hn. destruct (Req_EM_T (solC t i x) 0) as [Z|]; [|discriminate].
      rewrite E in Z by auto. unfold small in Sm. destruct (Rlt_dec (solC s i x) MASSOUT) as [|L]; [discriminate|].
      rewrite Z in L. unfold MASSOUT in L. lra. }
  pose proof (compact_spec i t N (nSol t i) Zs) as H.
  destruct (loop (nSol t i) (compactColumn tab i) (t, 0%nat)) as [u k]. cbn [fst].
  destruct H as (K & U1 & U2 & U3 & U4 & U5 & U6).
  assert (Kc : k = cnt (nSol s i) (fun x => negb (small s i x))).
  { rewrite K, B. apply cnt_ext. intros x Hx. unfold nonzero. destruct (small s i x) eqn:Sm; cbn.
    - rewrite D; auto. 2:{ unfold inBlock; lia. } destruct (Req_EM_T 0 0); congruence.
    - rewrite E by auto. unfold small in Sm. destruct (Rlt_dec (solC s i x) MASSOUT) as [|L]; [discriminate|].
      destruct (Req_EM_T (solC s i x) 0) as [Z|]; auto. rewrite Z in L. unfold MASSOUT in L. lra. }
  assert (Kn : (nSol u i - d = k)%nat) by (rewrite U1, B; lia).
  rewrite Kn. cbn zeta.
  assert (NS : nSol (setNSol (upd (nSol u) i k) u) i = k) by (cbn; unfold upd; now rewrite Nat.eqb_refl).
  split; [|split; [|split]].
  - destruct U4 as (V1 & V2 & V3 & V4 & V5 & V6 & V7).
    apply (okSt_frame s t); auto. apply M_ext; [|exact V2].
    change (inLiquids tab q (setNSol (upd (nSol u) i k) u)) with (inLiquids tab q u).
    rewrite (inLiquids_same tab q t u) by auto. f_equal.
    assert (EU : inSolids tab q (setNSol (upd (nSol u) i k) u) =
       inSolids tab q t + (phaseSum tab q (setNSol (upd (nSol u) i k) u) i - phaseSum tab q t i)).
    { apply inSolids_local; auto.
      - intros i' Ne. cbn. unfold upd. destruct (Nat.eqb_spec i' i); [congruence|]. now rewrite U1.
      - intros i' c x Hi' Pi' Ne Rc Hx. cbn. apply U5. right. intros Bc. apply Ne.
        destruct (Nat.eq_dec c i) as [->|Nc].
        + exfalso. exact (phaseRow_no_component tab Lay i i' Hi Hi' Pi Pi' N Rc).
        + symmetry. apply (rows_disjoint tab Lay i i' c); auto. right. unfold inBlock in Bc. split; auto. lia. }
    rewrite EU. unfold phaseSum. rewrite NS.
    rewrite !phaseSum_rows by auto.
    rewrite (sum_ext (na tab i) (fun j => perSol q (i+1+j) * sum k (solC (setNSol (upd (nSol u) i k) u) (i+1+j)%nat))
      (fun j => perSol q (i+1+j) * sum (nSol t i) (solC t (i+1+j)%nat))).
    + ring.
    + intros j Hj. f_equal. apply (U6 (i+1+j)%nat). unfold inBlock. lia.
  - intros i' Ne. cbn. unfold upd. destruct (Nat.eqb_spec i' i); [congruence|]. now rewrite U1, B.
  - rewrite NS. exact Kc.
  - intros c x Hc. cbn. rewrite U5 by auto. apply E. auto.
Qed.

Lemma dropSolid_pure i s : (i < npc tab)%nat -> isPhase tab i = true -> na tab i = 1%nat ->
  (nSol s i <= 1)%nat -> okSt s s ->
  let s' := dropSolid tab corr phaseTest redox i s in
  okSt s s' /\ (forall i', i' <> i -> nSol s' i' = nSol s i') /\
  nSol s' i = cnt (nSol s i) (fun x => negb (small s i x)) /\
  (forall c x, c <> i -> solC s' c x = solC s c x).
Proof.
  intros Hi Pi N1 L1 O. unfold dropSolid.
  destruct (nSol s i) as [|[|]] eqn:NS; [| |lia].
  - cbn. csp; auto.
  - cbn [loop]. unfold dropColumn. rewrite NS. cbn [Nat.ltb Nat.leb negb].
    cbn [cnt]. unfold small. destruct (Rlt_dec (solC s i 0) MASSOUT) as [Sm|Sm].
    2:{ cbn. csp; auto. }
    rewrite N1. cbn [Nat.eqb].
    pose proof O as (A1 & A2 & A3 & A4 & A5). rewrite A2.
    set (t := addLiq tab 0 (fun j => solToLiq tab i j * solC s i 0) s).
    set (u := setSol i 0 0 (setNSol (upd (nSol s) i (1 - 1)%nat) t)).
    assert (Rw : componentRow tab i i) by (left; auto).
    assert (Ou : okSt s u).
    { apply (okSt_frame s s); auto. apply M_ext; [|reflexivity]. unfold u.
      rewrite (inSolids_setSol tab q Lay _ i) by auto.
      assert (Z : nSol (setNSol (upd (nSol s) i (1-1)%nat) t) i = 0%nat) by (cbn; unfold upd; now rewrite Nat.eqb_refl).
      rewrite Z. cbn [Nat.ltb Nat.leb].
      change (nSol s) with (nSol t) at 1. rewrite (setNSol_new tab Lay q t i) by auto.
      change (nSol t) with (nSol s). rewrite NS. cbn [sum Nat.sub].
      match goal with |- context [inLiquids tab q (setSol ?a ?b ?v ?w)] =>
        change (inLiquids tab q (setSol a b v w)) with (inLiquids tab q t) end.
      change (inSolids tab q t) with (inSolids tab q s).
      unfold t at 2. rewrite inLiquids_addLiq by auto. rewrite (agrees_scal tab q _ _ Agr) by auto.
      unfold solidAmount. rewrite N1. cbn [Nat.eqb]. change (solC t) with (solC s). ring. }
    destruct (redox_step s u Ou) as (R1 & R2 & R3). cbn zeta in R1, R2, R3.
    cbn [fst snd Nat.ltb Nat.leb]. cbn zeta. split; [exact R1|]. rewrite R2, R3. csp.
    + intros i' Ne. unfold u. cbn. unfold upd. destruct (Nat.eqb_spec i' i); congruence.
    + unfold u. cbn. unfold upd. now rewrite Nat.eqb_refl.
    + intros c x Ne. unfold u. cbn. now apply upd2_row.
Qed.

Lemma dropSolid_counts i s : counts tab s -> (i < npc tab)%nat -> okSt s s ->
  let s' := dropSolid tab corr phaseTest redox i s in
  okSt s s' /\ counts tab s' /\ (forall i', i' <> i -> nSol s' i' = nSol s i') /\
  (isPhase tab i = true -> nSol s' i = cnt (nSol s i) (fun x => negb (small s i x))) /\
  (forall i' c x, (i' < npc tab)%nat -> isPhase tab i' = true -> i' <> i ->
      componentRow tab i' c \/ c = i' -> solC s' c x = solC s c x).
Proof.
  intros (C1 & C2 & C3) Hi O. destruct (isPhase tab i) eqn:Pi.
  - destruct (na_cases tab Lay i Hi Pi) as [N|N].
    + destruct (dropSolid_pure i s Hi Pi N (C2 i N) O) as (A & B & C & D). cbn zeta.
      set (s' := dropSolid _ _ _ _ _ _) in *. csp; auto.
      * intros i' F. rewrite B; auto. congruence.
      * intros i' Ni. destruct (Nat.eq_dec i' i) as [->|Ne]; [|rewrite B; auto].
        rewrite C. pose proof (cnt_le (nSol s i) (fun x => negb (small s i x))). specialize (C2 i N). lia.
      * intros i' Hn. rewrite B by lia. auto.
      * intros i' c x Hi' Pi' Ne Rc. apply D. intros ->. apply Ne.
        destruct Rc as [Rc|]; auto. symmetry. apply (rows_disjoint tab Lay i i' i); auto. left; auto.
    + destruct (dropSolid_solution i s Hi Pi N O) as (A & B & C & D). cbn zeta.
      set (s' := dropSolid _ _ _ _ _ _) in *. csp; auto.
      * intros i' F. rewrite B; auto. congruence.
      * intros i' Ni. destruct (Nat.eq_dec i' i) as [->|Ne]; [lia|rewrite B; auto].
      * intros i' Hn. rewrite B by lia. auto.
      * intros i' c x Hi' Pi' Ne Rc. apply D. unfold inBlock. intros Bc. apply Ne.
        destruct (Nat.eq_dec c i) as [->|Nc].
        { destruct Rc as [Rc|]; auto. exfalso. exact (phaseRow_no_component tab Lay i i' Hi Hi' Pi Pi' N Rc). }
        assert (Ri : componentRow tab i c) by (right; split; auto; lia).
        destruct Rc as [Rc| ->]; [symmetry; apply (rows_disjoint tab Lay i i' c); auto|].
        exfalso. destruct (Lay i Hi Pi) as [_ Bl]. destruct (Bl N) as [_ F].
        specialize (F (i' - i)%nat ltac:(lia)). replace (i + (i' - i))%nat with i' in F by lia. congruence.
  - unfold dropSolid. rewrite (C1 i Pi). cbn. csp; auto.
Qed.

Theorem dropSolids_spec s : counts tab s -> okSt s s ->
  let s' := dropSolids tab corr phaseTest redox s in
  okSt s s' /\ counts tab s' /\
  (forall i, (i < npc tab)%nat -> isPhase tab i = true ->
     nSol s' i = cnt (nSol s i) (fun x => negb (small s i x))).
Proof.
  intros Cn O. unfold dropSolids.
  assert (H : forall n, (n <= npc tab)%nat ->
    let t := loop n (dropSolid tab corr phaseTest redox) s in
    okSt s t /\ counts tab t /\
    (forall i, (i < n)%nat -> isPhase tab i = true -> nSol t i = cnt (nSol s i) (fun x => negb (small s i x))) /\
    (forall i, (n <= i)%nat -> nSol t i = nSol s i) /\
    (forall i x, (n <= i)%nat -> (i < npc tab)%nat -> isPhase tab i = true -> solC t i x = solC s i x)).
  { induction n; intros Hn.
    - cbn. csp; auto; try apply Cn. intros; lia.
    - destruct (IHn ltac:(lia)) as (A & B & C & D & E). cbn zeta in *. rewrite loop_S.
      set (t := loop n _ s) in *.
      assert (Ot : okSt t t) by eauto.
      destruct (dropSolid_counts n t B ltac:(lia) Ot) as (A' & B' & C' & D' & E'). cbn zeta in *.
      split; [|split; [|split; [|split]]].
      + exact (okSt_trans _ _ _ A A').
      + exact B'.
      + intros i Hi Pi. destruct (Nat.eq_dec i n) as [->|Ne].
        * rewrite D' by auto. rewrite D by lia. apply cnt_ext. intros x Hx. unfold small. rewrite E by (auto; lia). reflexivity.
        * rewrite C' by auto. apply C; auto. lia.
      + intros i Hi. rewrite C' by lia. apply D. lia.
      + intros i x Hi Hi' Pi. rewrite (E' i i x) by (auto; lia). apply E; auto. lia. }
  destruct (H (npc tab) (le_n _)) as (A & B & C & _). cbn zeta. auto.
Qed.

(** ** Liquids *)
Lemma dropLiquid_spec nl s : (nl < nLiq s)%nat -> (nLiq s <= nl + 2)%nat -> (2 <= nLiq s)%nat ->
  M (dropLiquid tab nl s) = M s.
Proof.
  intros H1 H2 H3. unfold dropLiquid. destruct (Nat.ltb_spec nl (nLiq s)); [|lia]. cbn [negb].
  destruct (Rlt_dec (liqMass tab s nl) MASSOUT) as [_|]; [|reflexivity].
  set (s1 := if Nat.ltb 0 nl then _ else s).
  assert (N1 : nLiq s1 = nLiq s) by (unfold s1; destruct (Nat.ltb 0 nl); reflexivity).
  assert (B1 : bulk s1 = bulk s) by (unfold s1; destruct (Nat.ltb 0 nl); reflexivity).
  assert (S1 : inSolids tab q s1 = inSolids tab q s) by (unfold s1; destruct (Nat.ltb 0 nl); reflexivity).
  assert (Z1 : (0 < nl)%nat -> inLiquid tab q s1 nl = 0).
  { intros P. unfold inLiquid. apply sum_0. intros j Hj. unfold s1. destruct (Nat.ltb_spec 0 nl); [|lia].
    cbn [liqC setLiqC]. destruct (Nat.ltb_spec j (nlc tab)); [|lia].
    destruct (Nat.eqb_spec nl 0); [lia|]. rewrite Nat.eqb_refl. ring. }
  assert (Z0 : (0 < nl)%nat -> inLiquid tab q s1 0 = inLiquid tab q s 0 + inLiquid tab q s nl).
  { intros P. unfold inLiquid. rewrite <- sum_plus. apply sum_ext. intros j Hj. unfold s1.
    destruct (Nat.ltb_spec 0 nl); [|lia]. cbn [liqC setLiqC].
    destruct (Nat.ltb_spec j (nlc tab)); [|lia]. cbn [Nat.eqb]. ring. }
  assert (Zn : forall n, n <> 0%nat -> n <> nl -> inLiquid tab q s1 n = inLiquid tab q s n).
  { intros n P1 P2. unfold s1. destruct (Nat.ltb_spec 0 nl); [|reflexivity]. unfold inLiquid. apply sum_ext.
    intros j Hj. cbn [liqC setLiqC].
    destruct (Nat.ltb_spec j (nlc tab)); [|lia].
    destruct (Nat.eqb_spec n 0); [lia|]. destruct (Nat.eqb_spec n nl); [lia|reflexivity]. }
  assert (L1 : inLiquids tab q s1 = inLiquids tab q s).
  { destruct (Nat.eq_dec nl 0) as [E|P].
    { unfold s1. rewrite E. reflexivity. }
    unfold inLiquids. rewrite N1.
    rewrite (sum_at (nLiq s) nl _ (fun n => if Nat.eqb n 0 then inLiquid tab q s 0 + inLiquid tab q s nl else inLiquid tab q s n)).
    - destruct (Nat.eqb_spec nl 0); [lia|].
      rewrite (sum_at (nLiq s) 0 (fun n => if Nat.eqb n 0 then inLiquid tab q s 0 + inLiquid tab q s nl else inLiquid tab q s n) (inLiquid tab q s)).
      + cbn [Nat.eqb]. rewrite Z1 by lia. ring.
      + intros n' _ Nn. destruct (Nat.eqb_spec n' 0); [lia|reflexivity].
      + lia.
    - intros n _ Nn. destruct (Nat.eqb_spec n 0) as [->|N0].
      + apply Z0. lia.
      + apply Zn; auto.
    - lia. }
  assert (Last : forall u n, nLiq u = S n -> inLiquids tab q (setNLiq (nLiq u - 1) u) = inLiquids tab q u - inLiquid tab q u n).
  { intros u n E. unfold inLiquids. cbn [nLiq setNLiq]. rewrite E. replace (S n - 1)%nat with n by lia. cbn [sum].
    change (inLiquid tab q (setNLiq n u)) with (inLiquid tab q u). ring. }
  rewrite N1. destruct (Nat.eq_dec (nLiq s) (nl+1)) as [E|E].
  - replace (nLiq s - (nl + 1))%nat with 0%nat by lia. cbn [loop].
    apply M_ext; [|exact B1].
    rewrite (Last s1 nl) by lia. rewrite L1, Z1 by lia.
    match goal with |- context [inSolids tab q (setNLiq ?a ?b)] => change (inSolids tab q (setNLiq a b)) with (inSolids tab q b) end.
    rewrite S1. ring.
  - replace (nLiq s - (nl + 1))%nat with 1%nat by lia. cbn [loop].
    replace (nl + 0)%nat with nl by lia. replace (nl + 1 + 0)%nat with (nl+1)%nat by lia.
    set (u := addLiq tab nl (liqC s1 (nl+1)%nat) s1).
    apply M_ext; [|exact B1].
    rewrite (Last u (nl+1)%nat) by (unfold u; cbn [nLiq addLiq setLiqC]; lia).
    assert (LU : inLiquids tab q u = inLiquids tab q s1 + sum (nlc tab) (fun j => perLiq q j * liqC s1 (nl+1)%nat j))
      by (unfold u; apply inLiquids_addLiq; lia).
    rewrite LU.
    match goal with |- context [inSolids tab q (setNLiq ?a ?b)] => change (inSolids tab q (setNLiq a b)) with (inSolids tab q s1) end.
    rewrite S1, L1.
    assert (inLiquid tab q u (nl+1) = sum (nlc tab) (fun j => perLiq q j * liqC s1 (nl+1)%nat j)).
    { unfold inLiquid. apply sum_ext. intros j Hj. unfold u. rewrite addLiq_other by lia. reflexivity. }
    lra.
Qed.

End Drop.
