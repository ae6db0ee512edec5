(** C33, C54: the node table is a map from indices to states. *)
From Coq Require Import ZArith List Lia Permutation Sorted Bool.
From Verif Require Import NodeModel.
Import ListNotations.
Open Scope Z_scope.

(** ** Specification *)

(** What the caller expects to find in node [idx] after a history: the effects
    of the earlier calls on that index, in order, on a fresh state. *)
Fixpoint expected {C} (fresh : C) (h : list (Z * (C -> C))) (idx : Z) (acc : C) : C :=
  match h with
  | [] => acc
  | (i, f) :: h' => expected fresh h' idx (if Z.eqb i idx then f acc else acc)
  end.

(** What the C standard promises of qsort: a rearrangement, which is in
    ascending order when the comparison function orders the keys present. *)
Definition fits (a b : Z) : Prop := - 2 ^ 31 <= a - b < 2 ^ 31.
Definition qsortOk (qs : list Entry -> list Entry) : Prop :=
  forall l, Permutation l (qs l) /\
    ((forall a b, In a l -> In b l -> fits (fst a) (fst b)) -> NoDup (map fst l) ->
     StronglySorted (fun a b => compareNodes (fst a) (fst b) < 0) (qs l)).

(** ** Proofs *)
Lemma wrap32_id x : - 2 ^ 31 <= x < 2 ^ 31 -> wrap32 x = x.
Proof. intros. unfold wrap32. rewrite Z.mod_small; lia. Qed.

Lemma compare_fits a b : fits a b -> compareNodes a b = a - b.
Proof. intros. unfold compareNodes. apply wrap32_id. exact H. Qed.

Definition ascending (l : list Entry) : Prop := StronglySorted (fun a b : Entry => fst a < fst b) l.

Lemma ascending_nth l : ascending l -> forall i j a b, (i < j)%nat ->
  nth_error l i = Some a -> nth_error l j = Some b -> fst a < fst b.
Proof.
  unfold ascending. induction 1 as [|x l SS IH F]; intros i j a b L A B.
  - destruct i; discriminate.
  - destruct j; [lia|]. cbn in B. destruct i; cbn in A.
    + injection A as <-. rewrite Forall_forall in F. apply F. eapply nth_error_In; eauto.
    + apply (IH i j); auto. lia.
Qed.

Lemma div2_mid l u : (l < u)%nat -> (l <= Nat.div2 (l + u) < u)%nat.
Proof.
  intros. rewrite Nat.div2_div. split.
  - apply Nat.div_le_lower_bound; lia.
  - apply Nat.div_lt_upper_bound; lia.
Qed.

Lemma bsearchIn_some fuel key tab l u k : bsearchIn fuel key tab l u = Some k ->
  (u <= length tab)%nat -> (forall e, In e tab -> fits key (fst e)) ->
  exists e, nth_error tab k = Some e /\ fst e = key.
Proof.
  revert l u. induction fuel as [|n IH]; intros l u E U Fit; [discriminate|].
  cbn [bsearchIn] in E; cbv zeta in E. destruct (Nat.ltb_spec l u); [|discriminate].
  pose proof (div2_mid l u H) as M.
  destruct (nth_error tab (Nat.div2 (l + u))) as [e|] eqn:N; [|discriminate].
  pose proof (Fit e (nth_error_In _ _ N)) as FE. rewrite (compare_fits _ _ FE) in E.
  destruct (Z.ltb_spec (key - fst e) 0).
  - apply (IH l (Nat.div2 (l + u)) E); auto. lia.
  - destruct (Z.ltb_spec 0 (key - fst e)).
    + apply (IH _ u E); auto.
    + injection E as <-. exists e. split; auto. lia.
Qed.

Lemma bsearchIn_none fuel key tab l u : bsearchIn fuel key tab l u = None ->
  ascending tab -> (u - l <= fuel)%nat -> (u <= length tab)%nat ->
  (forall e, In e tab -> fits key (fst e)) ->
  forall k e, (l <= k < u)%nat -> nth_error tab k = Some e -> fst e <> key.
Proof.
  revert l u. induction fuel as [|n IH]; intros l u E As F U Fit k e K N; [lia|].
  cbn [bsearchIn] in E; cbv zeta in E. destruct (Nat.ltb_spec l u); [|lia].
  pose proof (div2_mid l u H) as M. set (m := Nat.div2 (l + u)) in *.
  destruct (nth_error tab m) as [x|] eqn:Nx.
  2: { apply nth_error_None in Nx. lia. }
  pose proof (Fit x (nth_error_In _ _ Nx)) as FE. rewrite (compare_fits _ _ FE) in E.
  destruct (Z.ltb_spec (key - fst x) 0) as [Lt|Ge].
  - destruct (Nat.lt_ge_cases k m).
    + apply (IH l m E As ltac:(lia) ltac:(lia) Fit k e); auto; lia.
    + destruct (Nat.eq_dec k m) as [->|].
      * rewrite Nx in N. injection N as <-. lia.
      * pose proof (ascending_nth _ As m k x e ltac:(lia) Nx N). lia.
  - destruct (Z.ltb_spec 0 (key - fst x)) as [Gt|]; [|discriminate].
    destruct (Nat.lt_ge_cases m k).
    + apply (IH (S m) u E As ltac:(lia) ltac:(lia) Fit k e); auto; lia.
    + destruct (Nat.eq_dec k m) as [->|].
      * rewrite Nx in N. injection N as <-. lia.
      * pose proof (ascending_nth _ As k m e x ltac:(lia) N Nx). lia.
Qed.

Lemma bsearch_some key tab k : bsearch key tab = Some k ->
  (forall e, In e tab -> fits key (fst e)) -> exists e, nth_error tab k = Some e /\ fst e = key.
Proof. intros E F. unfold bsearch in E. eapply bsearchIn_some; eauto. Qed.

Lemma bsearch_none key tab : bsearch key tab = None -> ascending tab ->
  (forall e, In e tab -> fits key (fst e)) -> ~ In key (map fst tab).
Proof.
  intros E As F I. apply in_map_iff in I as (e & <- & I). apply In_nth_error in I as (k & K).
  assert (k < length tab)%nat by (apply nth_error_Some; congruence).
  unfold bsearch in E.
  apply (bsearchIn_none _ _ _ _ _ E As ltac:(lia) ltac:(lia) F k e ltac:(lia) K). reflexivity.
Qed.

Section P.
Variable C : Type.
Variable fresh : C.
Variable qsort : list Entry -> list Entry.
Hypothesis QS : qsortOk qsort.

Notation Mem := (Mem C).
Notation call := (call C fresh qsort).
Notation select := (select C fresh qsort).
Notation history := (history C fresh qsort).
Notation empty := (empty C fresh).

(** [J]: the indices allowed; all differences representable. *)
Variable J : Z -> Prop.
Hypothesis FitJ : forall a b, J a -> J b -> fits a b.

(** The table against a partial map from indices to states. *)
Definition ok (m : Mem) (val : Z -> C) : Prop :=
  ascending (nodes C m) /\
  NoDup (map snd (nodes C m)) /\
  (forall e, In e (nodes C m) -> J (fst e) /\ (snd e < next C m)%nat /\ cell C m (snd e) = val (fst e)) /\
  (forall i, ~ In i (map fst (nodes C m)) -> val i = fresh).

Lemma ascending_nodup l : ascending l -> NoDup (map fst l).
Proof.
  induction 1 as [|x l SS IH F]; cbn; constructor; auto.
  intros I. apply in_map_iff in I as (e & E & I). rewrite Forall_forall in F. specialize (F e I). lia.
Qed.

Lemma sort_asc l : (forall e, In e l -> J (fst e)) -> NoDup (map fst l) ->
  ascending (qsort l) /\ Permutation l (qsort l).
Proof.
  intros A N. destruct (QS l) as [P Srt]. split; auto.
  assert (Srt' := Srt (fun a b Ia Ib => FitJ _ _ (A a Ia) (A b Ib)) N). clear Srt.
  clear N. assert (A' : forall e, In e (qsort l) -> J (fst e))
    by (intros e I; apply A; eapply Permutation_in; [symmetry; eauto|auto]).
  clear P A. revert Srt' A'. generalize (qsort l). intros r0 Srt' A'. revert A'. unfold ascending. induction Srt' as [|x r SS IH F]; intros A'; constructor.
  - apply IH. intros e I. apply A'. now right.
  - rewrite Forall_forall in *. intros y I. specialize (F y I).
    rewrite compare_fits in F by (apply FitJ; apply A'; [now left|now right]). lia.
Qed.

(** Lookup: the pointer found belongs to that index. *)
Lemma select_ok m val idx m' p : ok m val -> J idx -> select idx m = (m', p) ->
  ok m' val /\ In (idx, p) (nodes C m') /\
  (forall e, In e (nodes C m) -> In e (nodes C m')).
Proof.
  intros (As & Np & Es & Fr) Ji. unfold NodeModel.select.
  destruct (Nat.eqb_spec (length (nodes C m)) 0) as [Z0|Nz]; cbn [negb].
  - intros E0; cbn in E0; injection E0 as <- <-. assert (nodes C m = []) as En by (destruct (nodes C m); cbn in Z0; [auto|lia]).
    rewrite En in *. split; [|split; [now left|intros e []]].
    split; [|split; [|split]]; cbn.
    + constructor; constructor.
    + constructor; [intros []|constructor].
    + intros e [<-|[]]. cbn. rewrite Nat.eqb_refl. split; auto. split; [lia|]. symmetry. apply Fr. intros [].
    + intros i _. apply Fr. intros [].
  - destruct (bsearch idx (nodes C m)) as [k|] eqn:B.
    + intros E0; injection E0 as <- <-. split; [unfold ok; auto|]. split; [|auto].
      destruct (bsearch_some _ _ _ B) as (e & N & E). { intros e I. apply FitJ; auto. now apply Es. }
      rewrite (nth_error_nth _ _ _ N). rewrite <- E, <- surjective_pairing. eapply nth_error_In; eauto.
    + intros E0; cbn in E0; injection E0 as <- <-.
      assert (Nin : ~ In idx (map fst (nodes C m))).
      { apply bsearch_none; auto. intros e I. apply FitJ; auto. now apply Es. }
      destruct (sort_asc (nodes C m ++ [(idx, next C m)])) as [As' Pm].
      { intros e I. apply in_app_or in I as [I|[<-|[]]]; auto. now apply Es. }
      { rewrite map_app. cbn. 
        eapply Permutation_NoDup; [apply Permutation_cons_append|]. constructor; auto. now apply ascending_nodup. }
      split; [|split].
      * split; [|split; [|split]]; cbn [nodes cell next].
        -- exact As'.
        -- eapply Permutation_NoDup; [apply Permutation_map; exact Pm|]. rewrite map_app. cbn.
           eapply Permutation_NoDup; [apply Permutation_cons_append|]. constructor; auto.
           intros I. apply in_map_iff in I as (e & E & I). pose proof (Es e I) as (_ & L & _). lia.
        -- intros e I. apply (Permutation_in _ (Permutation_sym Pm)) in I.
           apply in_app_or in I as [I|[<-|[]]]; cbn [fst snd].
           ++ destruct (Es e I) as (A & L & V). split; auto. split; [lia|].
              destruct (Nat.eqb_spec (snd e) (next C m)); [lia|auto].
           ++ rewrite Nat.eqb_refl. split; auto. split; [lia|]. symmetry. now apply Fr.
        -- intros i N. apply Fr. intros I. apply N. rewrite <- (Permutation_map fst Pm), map_app.
           apply in_or_app. now left.
      * cbn [nodes]. apply (Permutation_in _ Pm). apply in_or_app. right. now left.
      * intros e I. cbn [nodes]. apply (Permutation_in _ Pm). apply in_or_app. now left.
Qed.

Lemma entry_inj m val e e' : ok m val -> In e (nodes C m) -> In e' (nodes C m) ->
  (fst e = fst e' <-> snd e = snd e').
Proof.
  intros (As & Np & _) I I'. pose proof (ascending_nodup _ As) as Nf.
  assert (G : forall (A : Type) (g : Entry -> A) l, NoDup (map g l) -> In e l -> In e' l -> g e = g e' -> e = e').
  { intros A g. induction l as [|x l IH]; cbn; intros N A1 A2 E; [easy|]. inversion N; subst.
    destruct A1 as [<-|A1], A2 as [<-|A2]; auto.
    - exfalso. apply H1. rewrite E. now apply in_map.
    - exfalso. apply H1. rewrite <- E. now apply in_map. }
  split; intros E; [rewrite (G _ fst _ Nf I I' E)|rewrite (G _ snd _ Np I I' E)]; reflexivity.
Qed.

Lemma call_ok m val idx f : ok m val -> J idx ->
  snd (call idx f m) = val idx /\
  ok (fst (call idx f m)) (fun i => if Z.eqb idx i then f (val i) else val i).
Proof.
  intros O Ji. unfold NodeModel.call. destruct (select idx m) as [m1 p] eqn:Sel.
  destruct (select_ok _ _ _ _ _ O Ji Sel) as (O1 & In1 & _). cbn [fst snd].
  pose proof O1 as (As & Np & Es & Fr). split.
  - apply (Es _ In1).
  - split; [|split; [|split]]; cbn [nodes cell next]; auto.
    + intros e I. destruct (Es e I) as (A & L & V). split; auto. split; auto.
      pose proof (entry_inj _ _ e (idx, p) O1 I In1) as EI. cbn [fst snd] in EI.
      destruct (Nat.eqb_spec (snd e) p), (Z.eqb_spec idx (fst e)); rewrite V; auto; exfalso.
      { apply n. symmetry. now apply EI. }
      { apply n. now apply EI. }
    + intros i N. destruct (Z.eqb_spec idx i) as [<-|]; auto.
      exfalso. apply N. apply in_map_iff. exists (idx, p). auto.
Qed.

Lemma history_ok h : forall m val, ok m val -> (forall c, In c h -> J (fst c)) ->
  ok (history h m) (fun i => expected fresh h i (val i)).
Proof.
  induction h as [|[i f] h IH]; intros m val O A; cbn.
  - exact O.
  - destruct (call_ok m val i f O (A _ (or_introl eq_refl))) as [_ O'].
    exact (IH _ _ O' (fun c I => A c (or_intror I))).
Qed.

Lemma empty_ok : ok empty (fun _ => fresh).
Proof. split; [constructor|]. split; [constructor|]. split; [intros e []|]. auto. Qed.
End P.

(** ** C54: for every history of calls, a call on node [idx] finds exactly what
    the earlier calls on [idx] left, as long as no two indices used are 2^31
    or more apart (in particular for all non-negative indices). *)
Theorem C54_nodes_are_a_map : forall C (fresh : C) qsort, qsortOk qsort ->
  forall h idx f,
  (forall a b, In a (idx :: map fst h) -> In b (idx :: map fst h) -> - 2 ^ 31 <= a - b < 2 ^ 31) ->
  snd (call C fresh qsort idx f (history C fresh qsort h (empty C fresh))) = expected fresh h idx fresh.
Proof.
  intros C fresh qs Q h idx f Fit.
  set (J := fun a => In a (idx :: map fst h)).
  assert (FJ : forall a b, J a -> J b -> fits a b) by (intros a b A B; now apply Fit).
  pose proof (history_ok C fresh qs Q J FJ h _ _ (empty_ok C fresh J)) as O.
  specialize (O (fun c I => or_intror (in_map fst _ _ I))).
  destruct (call_ok C fresh qs Q J FJ _ _ idx f O (or_introl eq_refl)) as [V _]. exact V.
Qed.

Corollary C54_nonnegative_indices : forall C (fresh : C) qsort, qsortOk qsort ->
  forall h idx f,
  (forall a, In a (idx :: map fst h) -> 0 <= a < 2 ^ 31) ->
  snd (call C fresh qsort idx f (history C fresh qsort h (empty C fresh))) = expected fresh h idx fresh.
Proof.
  intros C fresh qs Q h idx f A. apply C54_nodes_are_a_map; auto.
  intros a b Ia Ib. apply A in Ia. apply A in Ib. lia.
Qed.

(** The states returned by the lookup are the same object for the same index,
    and different objects for different indices. *)
Theorem C54_same_index_same_node : forall C (fresh : C) qsort, qsortOk qsort ->
  forall h i j,
  (forall a b, In a (i :: j :: map fst h) -> In b (i :: j :: map fst h) -> - 2 ^ 31 <= a - b < 2 ^ 31) ->
  let (m1, p) := select C fresh qsort i (history C fresh qsort h (empty C fresh)) in
  let (m2, q) := select C fresh qsort j m1 in
  p = q <-> i = j.
Proof.
  intros C fresh qs Q h i j Fit.
  set (J := fun a => In a (i :: j :: map fst h)).
  assert (FJ : forall a b, J a -> J b -> fits a b) by (intros a b A B; now apply Fit).
  pose proof (history_ok C fresh qs Q J FJ h _ _ (empty_ok C fresh J)) as O.
  specialize (O (fun c I => or_intror (or_intror (in_map fst _ _ I)))).
  destruct (select C fresh qs i _) as [m1 p] eqn:S1.
  destruct (select_ok C fresh qs Q J FJ _ _ _ _ _ O (or_introl eq_refl) S1) as (O1 & I1 & _).
  destruct (select C fresh qs j m1) as [m2 q] eqn:S2.
  destruct (select_ok C fresh qs Q J FJ _ _ _ _ _ O1 (or_intror (or_introl eq_refl)) S2) as (O2 & I2 & K).
  apply K in I1. pose proof (entry_inj C fresh J m2 _ _ _ O2 I1 I2) as E. cbn [fst snd] in E. symmetry. exact E.
Qed.

(** ** A sorting routine that meets [qsortOk]: the merge sort glibc uses for
    small arrays, here as insertion from the right (same result). *)
Fixpoint insert (e : Entry) (l : list Entry) : list Entry :=
  match l with
  | [] => [e]
  | x :: l' => if compareNodes (fst e) (fst x) <=? 0 then e :: l else x :: insert e l'
  end.
Fixpoint isort (l : list Entry) : list Entry :=
  match l with [] => [] | e :: l' => insert e (isort l') end.

Lemma insert_perm e l : Permutation (e :: l) (insert e l).
Proof.
  induction l as [|x l IH]; cbn; auto. destruct (_ <=? 0); auto.
  rewrite perm_swap. now apply perm_skip.
Qed.
Lemma isort_perm l : Permutation l (isort l).
Proof. induction l; cbn; auto. rewrite <- insert_perm. now apply perm_skip. Qed.

Theorem isort_qsortOk : qsortOk isort.
Proof.
  intros l. split; [apply isort_perm|]. intros Fit Nd.
  set (lt := fun a b : Entry => compareNodes (fst a) (fst b) < 0).
  assert (Ins : forall e s, (forall x, In x s -> fits (fst e) (fst x)) -> (forall x, In x s -> fst x <> fst e) ->
     (forall x y, In x s -> In y s -> fits (fst x) (fst y)) -> (forall x, In x s -> fits (fst x) (fst e)) ->
     StronglySorted lt s -> StronglySorted lt (insert e s)).
  { intros e s F N FF F' SS. induction SS as [|x s SS IH Fa]; cbn; [repeat constructor|].
    rewrite (compare_fits (fst e) (fst x)) by (apply F; now left).
    destruct (Z.leb_spec (fst e - fst x) 0) as [L|G].
    - assert (lt e x). { unfold lt. rewrite compare_fits by (apply F; now left). pose proof (N x (or_introl eq_refl)). lia. }
      constructor; [constructor; auto|]. constructor; auto.
      rewrite Forall_forall in *. intros y I. specialize (Fa y I). unfold lt in *.
      rewrite compare_fits in * by (first [apply F|apply FF]; cbn; auto). lia.
    - constructor.
      + apply IH.
        * intros y I; apply F; now right.
        * intros y I; apply N; now right.
        * intros y z I I'; apply FF; now right.
        * intros y I; apply F'; now right.
      + rewrite Forall_forall in *. intros y I. apply (Permutation_in _ (Permutation_sym (insert_perm e s))) in I.
        destruct I as [<-|I]; [|now apply Fa]. unfold lt. rewrite compare_fits by (apply F'; now left). lia. }
  induction l as [|e l IH]; cbn; [constructor|].
  inversion Nd as [|? ? Ni Nd']; subst.
  assert (Mem : forall x, In x (isort l) -> In x l) by (intros x I; eapply Permutation_in; [symmetry; apply isort_perm|auto]).
  apply Ins.
  - intros x I. apply Fit; cbn; auto.
  - intros x I E. apply Ni. rewrite <- E. now apply in_map, Mem.
  - intros x y A B. apply Fit; cbn; auto.
  - intros x I. apply Fit; cbn; auto.
  - apply IH; auto. intros a b A B. apply Fit; cbn; auto.
Qed.

(** ** C33 as stated (any indices) is false: compareNodes overflows. After
    creating nodes 0, 2e9, -2e9, 1e9 and 1, node 1 is not found again; the
    next call on it starts from a fresh state. *)
Definition setTo (n : nat) : nat -> nat := fun _ => n.
Definition farApart : list (Z * (nat -> nat)) :=
  [(0, setTo 1); (2000000000, setTo 2); (-2000000000, setTo 3); (1000000000, setTo 4); (1, setTo 5)].

(** the C library's merge sort, on the appended table *)
Fixpoint merge (a : list Entry) : list Entry -> list Entry :=
  match a with
  | [] => fun b => b
  | x :: a' => fix mb (b : list Entry) : list Entry :=
      match b with
      | [] => a
      | y :: b' => if compareNodes (fst x) (fst y) <=? 0 then x :: merge a' b else y :: mb b'
      end
  end.
Fixpoint msort (fuel : nat) (l : list Entry) : list Entry :=
  match fuel with
  | O => l
  | S n => if Nat.leb (length l) 1 then l
           else let k := Nat.div2 (length l) in merge (msort n (firstn k l)) (msort n (skipn k l))
  end.
Definition glibcSort (l : list Entry) : list Entry := msort (length l) l.

Theorem C33_refuted_far_apart_indices :
  snd (call nat 0%nat glibcSort 1 (fun n => n) (history nat 0%nat glibcSort farApart (empty nat 0%nat))) = 0%nat /\
  expected 0%nat farApart 1 0%nat = 5%nat.
Proof. split; vm_compute; reflexivity. Qed.

(** A concrete history meeting the hypotheses: three nodes used in turn. *)
Theorem C54_case :
  let h := [(7, setTo 1); (3, setTo 2); (7, fun n => (n + 10)%nat); (5, setTo 3)] in
  snd (call nat 0%nat isort 7 (fun n => n) (history nat 0%nat isort h (empty nat 0%nat))) = 11%nat /\
  (forall a, In a (7 :: map fst h) -> 0 <= a < 2 ^ 31).
Proof. split; [vm_compute; reflexivity|]. cbn. intros a I. lia. Qed.
