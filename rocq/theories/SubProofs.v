(** The least-squares solution of a system that has a solution solves it; the reaction the program finds therefore balances,
    and the potential it gives is the one of the assemblage. *)
From Coq Require Import Reals List Lia Lra Bool Arith.
From Verif Require Import MassModel MassSpec MassProofs HessModel SubModel SubSpec.
Import ListNotations.
Open Scope R_scope.

(** ** The decomposition *)
Lemma orth_pick rows n U z k : orthonormal rows n U -> (k < n)%nat ->
  sum rows (fun i => U i k * sum n (fun l => U i l * z l)) = z k.
Proof.
  intros O Hk.
  transitivity (sum n (fun l => sum rows (fun i => U i k * U i l) * z l)).
  - transitivity (sum rows (fun i => sum n (fun l => U i k * U i l * z l))).
    + apply sum_ext. intros i _. rewrite <- sum_scal. apply sum_ext. intros. ring.
    + rewrite sum_swap. apply sum_ext. intros l _. apply sum_scal_r.
  - transitivity (sum n (fun l => if Nat.eqb l k then z l else 0)).
    + apply sum_ext. intros l Hl. rewrite (O k l Hk Hl), (Nat.eqb_sym k l). destruct (Nat.eqb l k); ring.
    + rewrite sum_one_f. apply Nat.ltb_lt in Hk. now rewrite Hk.
Qed.
Lemma sv_exact rows n U S V (A : nat -> nat -> R) b y :
  (forall i j, (i < rows)%nat -> (j < n)%nat -> A i j = sum n (fun k => U i k * S k * V j k)) ->
  orthonormal rows n U -> orthonormal n n V -> (forall k, (k < n)%nat -> S k = 0 \/ 1 / 100000000 <= S k) ->
  (forall i, (i < rows)%nat -> b i = sum n (fun j => A i j * y j)) ->
  forall i, (i < rows)%nat -> sum n (fun j => A i j * svSolve rows n U S V b j) = b i.
Proof.
  intros EA OU OV HS Hb.
  assert (AX : forall x i, (i < rows)%nat -> sum n (fun j => A i j * x j) = sum n (fun k => U i k * (S k * sum n (fun j => V j k * x j)))).
  { intros x i Hi. transitivity (sum n (fun j => sum n (fun k => U i k * S k * V j k * x j))).
    - apply sum_ext. intros j Hj. rewrite (EA i j Hi Hj). symmetry. apply sum_scal_r.
    - rewrite sum_swap. apply sum_ext. intros k _. rewrite <- sum_scal, <- sum_scal. apply sum_ext. intros. ring. }
  set (z := fun k => sum n (fun j => V j k * y j)).
  assert (UB : forall k, (k < n)%nat -> sum rows (fun i => U i k * b i) = S k * z k).
  { intros k Hk. rewrite <- (orth_pick rows n U (fun k => S k * z k) k OU Hk). apply sum_ext. intros i Hi. rewrite (Hb i Hi), (AX y i Hi). reflexivity. }
  intros i Hi. rewrite (AX _ i Hi), (Hb i Hi), (AX y i Hi). apply sum_ext. intros k Hk. f_equal.
  set (w := fun k => if Rlt_dec (S k) (1 / 100000000) then 0 else sum rows (fun i => U i k * b i) / S k).
  change (S k * sum n (fun j => V j k * sum n (fun l => V j l * w l)) = S k * z k).
  rewrite (orth_pick n n V w k OV Hk). unfold w. rewrite (UB k Hk). destruct (Rlt_dec (S k) (1 / 100000000)) as [L|L].
  - destruct (HS k Hk) as [E|E]; [rewrite E; ring|lra].
  - field. lra.
Qed.

(** ** Sums over the components *)
Fixpoint lsum {A} (F : A -> R) (l : list A) : R := match l with [] => 0 | a :: l => F a + lsum F l end.
Lemma lsum_app {A} (F : A -> R) l l' : lsum F (l ++ l') = lsum F l + lsum F l'.
Proof. induction l as [|a l IH]; cbn; [ring|]. rewrite IH. ring. Qed.
Lemma lsum_nth {A} (F : A -> R) d l : sum (length l) (fun j => F (nth j l d)) = lsum F l.
Proof.
  induction l as [|a l IH] using rev_ind; [reflexivity|].
  rewrite app_length, lsum_app, Nat.add_1_r. cbn [sum lsum]. rewrite nth_middle, Rplus_0_r, <- IH. f_equal.
  apply sum_ext. intros i Hi. now rewrite app_nth1.
Qed.
Lemma lsum_flat {A} (F : A -> R) (g : nat -> list A) n : lsum F (flat_map g (seq 0 n)) = sum n (fun i => lsum F (g i)).
Proof.
  induction n as [|n IH]; [reflexivity|]. rewrite seq_S, flat_map_app, lsum_app, IH. cbn [flat_map Nat.add sum]. now rewrite app_nil_r.
Qed.
Lemma lsum_ext {A} (F G : A -> R) l : (forall a, In a l -> F a = G a) -> lsum F l = lsum G l.
Proof. induction l as [|a l IH]; intros H; [reflexivity|]. cbn. rewrite IH, (H a); [reflexivity|now left|intros; apply H; now right]. Qed.
Lemma lsum_zero {A} (F : A -> R) l : (forall a, In a l -> F a = 0) -> lsum F l = 0.
Proof. intros H. rewrite (lsum_ext F (fun _ => 0) l H). induction l as [|a l IH]; [reflexivity|]. cbn. rewrite IH; [ring|]. intros; apply H; now right. Qed.
Lemma zeroR_true x : zeroR x = true <-> x = 0.
Proof. unfold zeroR. destruct (Req_EM_T x 0); split; congruence. Qed.
Lemma zeroR_false x : zeroR x = false <-> x <> 0.
Proof. unfold zeroR. destruct (Req_EM_T x 0); split; congruence. Qed.

Section Assemblage.
Variable tab : Tab.
Variables feo fe2o3 : nat.
Hypothesis Diff : feo <> fe2o3.
Hypothesis Hfeo : (feo < nc tab)%nat.
Hypothesis Hfe2o3 : (fe2o3 < nc tab)%nat.
Hypothesis Fe3 : forall o, isFe2O3 tab o = Nat.eqb o fe2o3.
Notation isFeO := (fun o => Nat.eqb o feo).

Lemma cols_present s i k : In (i, k) (cols tab s) <-> present tab s i k.
Proof.
  clear Diff Hfeo Hfe2o3 Fe3. unfold cols, present. rewrite in_flat_map. split.
  - intros (ph & Hp & H). apply in_seq in Hp. exists ph. unfold colsOf in H. destruct (Nat.eqb_spec (nSol s ph) 0) as [E|E]; [destruct H|].
    split; [lia|]. split; [lia|]. destruct (Nat.eqb_spec (na tab ph) 1) as [N|N].
    + left. destruct H as [H|[]]. injection H as <- <-. auto.
    + right. split; [exact N|]. apply in_flat_map in H. destruct H as (k' & Hk & H). apply in_seq in Hk. apply in_flat_map in H. destruct H as (j & Hj & H). apply in_seq in Hj.
      destruct (zeroR (solC s (ph + 1 + j) k')) eqn:Z; [destruct H|]. destruct H as [H|[]]. injection H as <- <-. split; [lia|]. exists j. split; [lia|]. split; [reflexivity|]. now apply zeroR_false.
  - intros (ph & Hp & Hn & C). exists ph. split; [apply in_seq; lia|]. unfold colsOf. destruct (Nat.eqb_spec (nSol s ph) 0) as [E|_]; [lia|].
    destruct C as [(N & -> & ->)|(N & Hk & j & Hj & -> & Z)].
    + rewrite N. now left.
    + destruct (Nat.eqb_spec (na tab ph) 1) as [E|_]; [contradiction|]. apply in_flat_map. exists k. split; [apply in_seq; lia|]. apply in_flat_map. exists j. split; [apply in_seq; lia|].
      apply zeroR_false in Z. rewrite Z. now left.
Qed.
(** the coefficients of the components in order *)
Lemma made_cols s e o : sensible tab s -> (forall i k, ~ present tab s i k -> e i k = 0) ->
  made tab s e o = lsum (fun c => e (fst c) (snd c) * solToOx tab (fst c) o) (cols tab s).
Proof.
  clear Diff Hfeo Hfe2o3 Fe3. intros Sn Z. unfold made, cols. rewrite lsum_flat. apply sum_ext. intros ph Hp. unfold colsOf.
  destruct (Nat.eqb_spec (na tab ph) 1) as [N|N].
  - destruct (Nat.eqb (nSol s ph) 0); cbn; ring.
  - destruct (Nat.eqb_spec (nSol s ph) 0) as [E|E]; [rewrite E; reflexivity|].
    rewrite lsum_flat. apply sum_ext. intros k Hk. rewrite lsum_flat. apply sum_ext. intros j Hj.
    destruct (zeroR (solC s (ph + 1 + j) k)) eqn:Q; cbn; [|ring].
    destruct (Req_dec (e (ph + 1 + j)%nat k) 0) as [E0|E0]; [rewrite E0; ring|].
    (* a coefficient that is not zero belongs to a component that is there under some phase *)
    assert (P : present tab s (ph + 1 + j) k \/ ~ present tab s (ph + 1 + j) k).
    { rewrite <- cols_present. destruct (in_dec (fun a b : nat * nat => ltac:(decide equality; apply Nat.eq_dec) : {a = b} + {a <> b}) ((ph + 1 + j)%nat, k) (cols tab s)); auto. }
    destruct P as [P|P]; [|exfalso; apply E0, Z, P].
    exfalso. apply zeroR_true in Q. destruct P as (ph' & Hp' & Hn' & [(N' & E' & ->)|(_ & _ & j' & _ & _ & Z')]).
    2: now apply Z'.
    destruct (sn_phase tab s Sn ph Hp ltac:(lia)) as (_ & _ & Q'). specialize (Q' N j Hj).
    destruct (sn_phase tab s Sn ph' Hp' Hn') as (I' & _). rewrite <- E', Q' in I'. discriminate.
Qed.

(** ** The reaction *)
(** coefficients of the components l, in order, that oxidise *)
Definition want (o : nat) : R := (if Nat.eqb o fe2o3 then 2 else 0) - (if Nat.eqb o feo then 4 else 0).
Definition balances (l : list (nat * nat)) (d : nat -> R) : Prop :=
  d O = - 1 /\ forall o, (o < nc tab)%nat -> sum (length l) (fun j => d (S j) * solToOx tab (fst (nth j l (O, O))) o) = want o.
Lemma rhs_want o : rhsOf tab isFeO o = want o.
Proof.
  unfold rhsOf, want. rewrite Fe3. destruct (Nat.eqb_spec o fe2o3) as [A|A]; destruct (Nat.eqb_spec o feo) as [B|B]; try lra. congruence.
Qed.
Lemma in_oxides s o : In o (oxides tab s) <-> (o < nc tab)%nat /\ bulk s o <> 0.
Proof. clear Diff Hfeo Hfe2o3 Fe3. unfold oxides. rewrite filter_In, in_seq. destruct (zeroR (bulk s o)) eqn:Z; [apply zeroR_true in Z|apply zeroR_false in Z]; cbn; split; intros [A B]; split; auto; try lia; try discriminate; contradiction. Qed.
Lemma colAt_in s j : (j < length (cols tab s))%nat -> In (colAt tab s j) (cols tab s).
Proof. intros H. unfold colAt. now apply nth_In. Qed.
Lemma colAt_present s j : (j < length (cols tab s))%nat -> present tab s (fst (colAt tab s j)) (snd (colAt tab s j)).
Proof. clear Diff Hfeo Hfe2o3 Fe3. intros H. apply cols_present. rewrite <- surjective_pairing. now apply colAt_in. Qed.
Lemma present_amount s i k : sensible tab s -> present tab s i k -> solC s i k <> 0.
Proof. clear Diff Hfeo Hfe2o3 Fe3. intros Sn (ph & Hp & Hn & [(N & -> & ->)|(_ & _ & j & _ & _ & Z)]); [|exact Z]. now apply (sn_pure tab s Sn). Qed.
Lemma sum_front n f : sum (S n) f = f O + sum n (fun i => f (S i)).
Proof. induction n as [|n IH]; [cbn; ring|]. change (sum (S (S n)) f) with (sum (S n) f + f (S n)). rewrite IH. cbn [sum]. ring. Qed.
Lemma nth_seen s o : In o (oxides tab s) -> exists i, (S i < rowsN tab s)%nat /\ nth i (oxides tab s) O = o.
Proof. intros H. destruct (In_nth _ _ O H) as (i & Hi & E). exists i. split; [unfold rowsN; lia|exact E]. Qed.
Lemma length_filter_eqb l o : NoDup l -> In o l -> length (filter (fun x => Nat.eqb x o) l) = 1%nat.
Proof.
  clear. induction l as [|a l IH]; intros N H; [destruct H|]. inversion N as [|? ? Na Nl]; subst. cbn. destruct H as [->|H].
  - rewrite Nat.eqb_refl. cbn. f_equal. assert (E : filter (fun x => Nat.eqb x o) l = []); [|now rewrite E].
    clear - Na. induction l as [|b l IH]; [reflexivity|]. cbn. destruct (Nat.eqb_spec b o) as [->|]; [destruct Na; now left|]. apply IH. intros K. apply Na. now right.
  - destruct (Nat.eqb_spec a o) as [->|]; [contradiction|]. now apply IH.
Qed.
Lemma iron_two s : In feo (oxides tab s) -> In fe2o3 (oxides tab s) -> ironOxides tab isFeO s = 2%nat.
Proof.
  intros A B. assert (N : NoDup (oxides tab s)) by (apply NoDup_filter, seq_NoDup). unfold ironOxides. rewrite (length_filter_eqb _ feo N A).
  rewrite (filter_ext _ (fun o => Nat.eqb o fe2o3) Fe3 (oxides tab s)), (length_filter_eqb _ fe2o3 N B). reflexivity.
Qed.

Section Found.
Variable s : St.
Variable e : nat -> nat -> R.
Hypothesis Sn : sensible tab s.
Hypothesis Ox : oxidises tab feo fe2o3 s e.
Lemma absent o : (o < nc tab)%nat -> bulk s o = 0 -> want o = 0.
Proof.
  intros Ho B. destruct Ox as [Z M]. unfold want. rewrite <- (M o Ho), (made_cols s e o Sn Z). apply lsum_zero. intros [i k] H. apply cols_present in H. cbn.
  rewrite (sn_bulk tab s Sn i k o H Ho B). ring.
Qed.
Lemma iron_there : In feo (oxides tab s) /\ In fe2o3 (oxides tab s).
Proof.
  split; apply in_oxides; (split; [assumption|]); intros B.
  - pose proof (absent feo Hfeo B) as W. unfold want in W. rewrite Nat.eqb_refl in W. destruct (Nat.eqb_spec feo fe2o3); [contradiction|lra].
  - pose proof (absent fe2o3 Hfe2o3 B) as W. unfold want in W. rewrite Nat.eqb_refl in W. destruct (Nat.eqb_spec fe2o3 feo); [congruence|lra].
Qed.
(** the weighted system has a solution *)
Definition sol (j : nat) : R := match j with O => - (1 / 10) | S j => e (fst (colAt tab s j)) (snd (colAt tab s j)) / amount s (colAt tab s j) end.
Lemma weighted_solvable i : (i < rowsN tab s)%nat -> sum (colsN tab s) (fun j => stM tab s i j * weight tab s j * sol j) = rhs tab isFeO s i.
Proof.
  intros Hi. unfold colsN. rewrite sum_front. destruct i as [|i].
  - cbn [stM weight sol rhs]. rewrite (sum_ext _ _ (fun _ => 0)) by (intros; ring). rewrite sum_zero. field.
  - cbn [rhs]. rewrite rhs_want. set (o := nth i (oxides tab s) O). assert (Ho : In o (oxides tab s)) by (apply nth_In; unfold rowsN in Hi; lia).
    apply in_oxides in Ho. destruct Ox as [Z M]. unfold want. rewrite <- (M o (proj1 Ho)), (made_cols s e o Sn Z).
    rewrite <- (lsum_nth _ (O, O)). cbn [stM weight]. replace (0 * 10 * sol 0) with 0 by ring. rewrite Rplus_0_l. apply sum_ext. intros j Hj.
    unfold sol. cbn [weight]. fold o. fold (colAt tab s j). unfold amount. field. apply present_amount; [exact Sn|]. now apply colAt_present.
Qed.
Variable f : Svd.
Hypothesis Sv : svdOf (svRows tab s) (colsN tab s) (svMat tab s) f.
Lemma x_solves i : (i < rowsN tab s)%nat -> sum (colsN tab s) (fun j => stM tab s i j * weight tab s j * svX tab isFeO s f j) = rhs tab isFeO s i.
Proof.
  intros Hi. destruct Sv as [E OU OV HS]. unfold svX. unfold svRows in *. unfold svMat in E.
  destruct (Nat.leb_spec (colsN tab s) (rowsN tab s)) as [L|L].
  - transitivity (svRhs tab isFeO s i); [|unfold svRhs; apply Nat.ltb_lt in Hi; now rewrite Hi].
    apply (sv_exact (rowsN tab s) (colsN tab s) (svU f) (svS f) (svV f) (fun i j => stM tab s i j * weight tab s j) (svRhs tab isFeO s) sol); auto.
    intros k Hk. rewrite (weighted_solvable k Hk). unfold svRhs. apply Nat.ltb_lt in Hk. now rewrite Hk.
  - assert (G : forall k, (k < colsN tab s)%nat -> sum (colsN tab s) (fun j => (if Nat.ltb k (rowsN tab s) then stM tab s k j * weight tab s j else 0) * svSolve (colsN tab s) (colsN tab s) (svV f) (svS f) (svU f) (svRhs tab isFeO s) j) = svRhs tab isFeO s k).
    { apply (sv_exact (colsN tab s) (colsN tab s) (svV f) (svS f) (svU f) (fun k j => if Nat.ltb k (rowsN tab s) then stM tab s k j * weight tab s j else 0) (svRhs tab isFeO s) sol); auto.
      - intros k j Hk Hj. rewrite (E j k Hj Hk). apply sum_ext. intros. ring.
      - intros k Hk. unfold svRhs. destruct (Nat.ltb_spec k (rowsN tab s)) as [Q|Q]; [symmetry; now apply weighted_solvable|].
        rewrite (sum_ext _ _ (fun _ => 0)) by (intros; ring). now rewrite sum_zero. }
    specialize (G i ltac:(lia)). unfold svRhs in G. apply Nat.ltb_lt in Hi. rewrite Hi in G. exact G.
Qed.
Lemma x_first : svX tab isFeO s f O = - (1 / 10).
Proof.
  pose proof (x_solves O ltac:(unfold rowsN; lia)) as H. unfold colsN in H. rewrite sum_front in H. cbn [stM weight rhs] in H.
  rewrite (sum_ext _ _ (fun _ => 0)) in H by (intros; ring). rewrite sum_zero in H. lra.
Qed.
Theorem reaction_balances : exists d, reaction tab isFeO s f = Some d /\ balances (cols tab s) d.
Proof.
  unfold reaction. destruct iron_there as [I1 I2]. rewrite (iron_two s I1 I2). cbn [Nat.eqb]. rewrite x_first.
  destruct (Req_EM_T (- (1 / 10)) 0) as [K|_]; [lra|]. eexists. split; [reflexivity|]. unfold balances, divideAll. cbn [weight]. rewrite x_first.
  split; [field|]. intros o Ho. destruct (Req_dec (bulk s o) 0) as [B|B].
  - rewrite (absent o Ho B). rewrite (sum_ext _ _ (fun _ => 0)); [apply sum_zero|]. intros j Hj.
    rewrite (sn_bulk tab s Sn (fst (nth j (cols tab s) (O, O))) (snd (nth j (cols tab s) (O, O))) o); [ring| |exact Ho|exact B]. now apply (colAt_present s j).
  - destruct (nth_seen s o) as (i & Hi & E); [now apply in_oxides|]. pose proof (x_solves (S i) Hi) as H. cbn [rhs] in H. rewrite rhs_want, E in H.
    rewrite <- H. unfold colsN. rewrite sum_front. cbn [stM]. rewrite E. replace (0 * weight tab s 0 * svX tab isFeO s f 0) with 0 by ring. rewrite Rplus_0_l.
    apply sum_ext. intros j Hj. unfold colAt at 2. cbn [weight]. unfold colAt. field.
Qed.
End Found.

(** ** The cache *)
(** a cache left by earlier calls, on whatever assemblages *)
Definition cacheOk (c : option Cache) : Prop :=
  forall q, c = Some q -> forall s e, sensible tab s -> oxidises tab feo fe2o3 s e -> cols tab s = cCols q -> balances (cols tab s) (cD q).
Lemma sameCols_eq a : forall b, sameCols a b = true -> a = b.
Proof.
  clear. induction a as [|x a IH]; intros [|y b]; try discriminate; [reflexivity|]. unfold sameCols. cbn [length combine forallb Nat.eqb fst snd]. intros H.
  apply andb_true_iff in H. destruct H as [L H]. apply andb_true_iff in H. destruct H as [E H]. apply andb_true_iff in E. destruct E as [E1 E2]. apply Nat.eqb_eq in E1, E2.
  rewrite (IH b); [|unfold sameCols; now rewrite L, H]. f_equal. destruct x, y. cbn in *. now subst.
Qed.
Lemma reusable_same c s d : reusable tab c s = Some d -> exists q, c = Some q /\ cols tab s = cCols q /\ d = cD q.
Proof.
  destruct c as [q|]; [|discriminate]. unfold reusable. destruct (Nat.eqb (rowsN tab s) (cRows q) && sameCols (cols tab s) (cCols q) && forallb (fun q => if Rlt_dec (5 / 1000000) (Rabs (amount s q)) then true else false) (cols tab s)) eqn:B; [|discriminate].
  apply andb_true_iff in B. destruct B as [B _]. apply andb_true_iff in B. destruct B as [_ B]. intros H. injection H as <-. exists q. split; [reflexivity|]. split; [now apply sameCols_eq|reflexivity].
Qed.
(** what one balanced reaction says about another state with the same components *)
Lemma oxidises_cols s s' e' : sensible tab s -> sensible tab s' -> cols tab s = cols tab s' -> oxidises tab feo fe2o3 s' e' -> exists e, oxidises tab feo fe2o3 s e.
Proof.
  intros Sn Sn' E [Z M]. exists e'. assert (P : forall i k, present tab s i k <-> present tab s' i k) by (intros; rewrite <- !cols_present, E; tauto).
  assert (Z' : forall i k, ~ present tab s i k -> e' i k = 0) by (intros i k H; apply Z; rewrite <- P; exact H).
  split; [exact Z'|]. intros o Ho. rewrite (made_cols s e' o Sn Z'), E, <- (made_cols s' e' o Sn' Z). now apply M.
Qed.
Lemma getReaction_ok c s f : cacheOk c -> sensible tab s -> svdOf (svRows tab s) (colsN tab s) (svMat tab s) f -> cacheOk (snd (getReaction tab isFeO c s f)).
Proof.
  intros C Sn Sv. unfold getReaction. destruct (reusable tab c s); [exact C|]. destruct (reaction tab isFeO s f) as [d|] eqn:R; [|exact C].
  cbn [snd]. intros q Q s' e' Sn' Ox' E. injection Q as <-. cbn [cCols cD] in *. destruct (oxidises_cols s s' e' Sn Sn' (eq_sym E) Ox') as (e & Ox).
  destruct (reaction_balances s e Sn Ox f Sv) as (d' & R' & B). rewrite R' in R. injection R as <-. rewrite E. exact B.
Qed.
Lemma getReaction_balances c s f e : cacheOk c -> sensible tab s -> svdOf (svRows tab s) (colsN tab s) (svMat tab s) f -> oxidises tab feo fe2o3 s e ->
  exists d, fst (getReaction tab isFeO c s f) = Some d /\ balances (cols tab s) d.
Proof.
  intros C Sn Sv Ox. unfold getReaction. destruct (reusable tab c s) as [d|] eqn:Q.
  - exists d. split; [reflexivity|]. destruct (reusable_same c s d Q) as (q & -> & E & ->). exact (C q eq_refl s e Sn Ox E).
  - destruct (reaction_balances s e Sn Ox f Sv) as (d & R & B). rewrite R. exists d. split; [reflexivity|exact B].
Qed.

(** ** The potential *)
Section Mu.
Variable dat : Data.
Variables t p : R.
Lemma ln_product n (a d : nat -> R) : ln (product n (fun j => Rpower (a j) (d j))) = sum n (fun j => d j * ln (a j)) /\ 0 < product n (fun j => Rpower (a j) (d j)).
Proof.
  clear. induction n as [|n [IH P]]; [cbn; split; [apply ln_1|lra]|]. cbn [product sum]. assert (Q : 0 < Rpower (a n) (d n)) by apply exp_pos.
  split; [|now apply Rmult_lt_0_compat]. rewrite ln_mult by assumption. rewrite IH. f_equal. unfold Rpower. apply ln_exp.
Qed.
Lemma act_potential s i k : sensible tab s -> measurable tab dat t p s -> present tab s i k ->
  dG dat i t p + Rgas * t * ln (actOf tab dat t p s (i, k)) = potentialOf tab dat t p s i k.
Proof.
  intros Sn Ms Pr. unfold actOf, potentialOf. cbn [fst snd]. destruct (isPhase tab i) eqn:I; [rewrite ln_1; ring|]. cbv zeta.
  rewrite Rmax_left; [reflexivity|]. specialize (Ms i k Pr I). lra.
Qed.
Theorem mu_equilibrium s d psi : sensible tab s -> measurable tab dat t p s -> inEquilibrium tab dat t p psi s -> balances (cols tab s) d ->
  muReact tab dat t p (cols tab s) d s = oxygenPotential feo fe2o3 dat t p psi.
Proof.
  intros Sn Ms Eq [B0 B]. unfold muReact. rewrite (proj1 (ln_product _ _ _)), B0.
  transitivity (- 1 * dO2 dat t p + sum (length (cols tab s)) (fun j => d (S j) * potentialOf tab dat t p s (fst (colAt tab s j)) (snd (colAt tab s j)))).
  { rewrite Rplus_assoc. f_equal. rewrite <- sum_scal, <- sum_plus. apply sum_ext. intros j Hj. fold (colAt tab s j).
    rewrite <- (act_potential s _ _ Sn Ms (colAt_present s j Hj)), <- surjective_pairing. ring. }
  transitivity (- 1 * dO2 dat t p + sum (nc tab) (fun o => want o * psi o)).
  { f_equal. transitivity (sum (length (cols tab s)) (fun j => sum (nc tab) (fun o => d (S j) * solToOx tab (fst (colAt tab s j)) o * psi o))).
    - apply sum_ext. intros j Hj. rewrite (Eq _ _ (colAt_present s j Hj)), <- sum_scal. apply sum_ext. intros. ring.
    - rewrite sum_swap. apply sum_ext. intros o Ho. rewrite <- (B o Ho). rewrite sum_scal_r. reflexivity. }
  unfold oxygenPotential. rewrite (sum_ext _ (fun o => want o * psi o) (fun o => (if Nat.eqb o fe2o3 then 2 * psi o else 0) + - (if Nat.eqb o feo then 4 * psi o else 0))).
  2:{ intros o _. unfold want. destruct (Nat.eqb o fe2o3), (Nat.eqb o feo); ring. }
  rewrite sum_plus, sum_opp, !sum_one_f. apply Nat.ltb_lt in Hfeo, Hfe2o3. rewrite Hfeo, Hfe2o3. ring.
Qed.
Lemma solids_there s e : sensible tab s -> oxidises tab feo fe2o3 s e -> noSolids tab s = false.
Proof.
  intros Sn [Z M]. destruct (noSolids tab s) eqn:N; [|reflexivity]. exfalso. unfold noSolids in N.
  assert (A : forall ph, (ph < npc tab)%nat -> (nSol s ph * na tab ph = 0)%nat).
  { intros ph. generalize (npc tab) N. clear. induction n as [|n IH]; intros N H; [lia|]. cbn in N. apply andb_true_iff in N. destruct N as [N1 N2]. destruct (Nat.eq_dec ph n) as [->|]; [now apply Nat.eqb_eq|apply IH; [exact N1|lia]]. }
  specialize (M feo Hfeo). rewrite (made_cols s e feo Sn Z) in M. rewrite lsum_zero in M.
  - rewrite Nat.eqb_refl in M. destruct (Nat.eqb_spec feo fe2o3); [contradiction|lra].
  - intros [i k] H. apply cols_present in H. destruct H as (ph & Hp & Hn & _). specialize (A ph Hp). destruct (sn_phase tab s Sn ph Hp Hn) as (_ & L & _). exfalso.
    destruct (nSol s ph), (na tab ph); lia.
Qed.
End Mu.
End Assemblage.
