(** What the filling loops put where. *)
From Coq Require Import Reals List Lia Lra Bool Arith.
From Verif Require Import MassModel MassProofs HessModel.
Import ListNotations.
Open Scope R_scope.

Definition isActive (B : Block) (j : nat) : bool := negb (zeroR (bM B j)).
Definition upto (B : Block) (n : nat) : list nat := filter (isActive B) (seq 0 n).
Definition active (B : Block) : list nat := upto B (bN B).
(** the entry of l that belongs to row r of a block that starts at row base *)
Definition at_ (base : nat) (l : list nat) (r : nat) : option nat := if Nat.leb base r then nth_error l (r - base) else None.

Lemma upto_S B n : upto B (S n) = if isActive B n then upto B n ++ [n] else upto B n.
Proof. unfold upto. rewrite seq_S. cbn [Nat.add]. rewrite filter_app. cbn [filter]. destruct (isActive B n); [reflexivity|apply app_nil_r]. Qed.
Lemma at_snoc base l x r : at_ base (l ++ [x]) r = if Nat.eqb r (base + length l) then Some x else at_ base l r.
Proof.
  unfold at_. destruct (Nat.leb_spec base r) as [H|H].
  - destruct (Nat.eqb_spec r (base + length l)) as [->|N].
    + replace (base + length l - base)%nat with (length l) by lia. rewrite nth_error_app2 by lia. now rewrite Nat.sub_diag.
    + destruct (Nat.lt_ge_cases (r - base) (length l)); [now rewrite nth_error_app1|]. rewrite nth_error_app2 by lia.
      destruct (r - base - length l)%nat eqn:E; [lia|]. cbn. symmetry. rewrite (proj2 (nth_error_None l (r - base))) by lia. now destruct n.
  - destruct (Nat.eqb_spec r (base + length l)); [lia|reflexivity].
Qed.
Lemma at_out base l r : (base + length l <= r)%nat -> at_ base l r = None.
Proof. intros H. unfold at_. destruct (Nat.leb base r); auto. apply nth_error_None. lia. Qed.
Lemma at_below base l r : (r < base)%nat -> at_ base l r = None.
Proof. intros H. unfold at_. destruct (Nat.leb_spec base r); [lia|auto]. Qed.
Lemma at_in base l r x : at_ base l r = Some x -> In x l /\ (base <= r < base + length l)%nat.
Proof. unfold at_. destruct (Nat.leb_spec base r); [|discriminate]. intros E. split; [now apply nth_error_In in E|]. assert (r - base < length l)%nat by (apply nth_error_Some; congruence). lia. Qed.

Section F.
Variable nonLinear : bool.
Variable idx : option nat.
Definition isIdx (r : nat) : bool := match idx with Some i => Nat.eqb r i | None => false end.
Definition rowB (B : Block) (n j : nat) : R :=
  if nonLinear then 0 else sum n (fun k => if isActive B k then bM B k * bD2p B j k else 0).

Lemma fillRow_n (B : Block) (j m : nat) (M : Mats) n :
  let L := loop n (fun k Ml =>
    let '(M, l) := Ml in
    if zeroR (bM B k) then (M, l)
    else let M := addE (colRow M + m) (colRow M + l) (bD2p B j k) M in
         (addB (colRow M + m) (if nonLinear then 0 else bM B k * bD2p B j k) M, S l)) (M, O) in
  snd L = length (upto B n) /\ colRow (fst L) = colRow M /\
  (forall r c, mE (fst L) r c = mE M r c + (if Nat.eqb r (colRow M + m) then match at_ (colRow M) (upto B n) c with Some k => bD2p B j k | None => 0 end else 0)) /\
  (forall r, mB (fst L) r = mB M r + (if Nat.eqb r (colRow M + m) then rowB B n j else 0)).
Proof.
  induction n; cbv zeta.
  - cbn [loop fst snd upto]. split; [reflexivity|]. split; [reflexivity|]. split.
    + intros r c. unfold at_. cbn. destruct (r =? colRow M + m)%nat; [|ring]. destruct (colRow M <=? c)%nat; [destruct (c - colRow M)%nat|]; cbn; ring.
    + intros r. unfold rowB. cbn. destruct nonLinear; destruct (r =? colRow M + m)%nat; ring.
  - cbn [loop]. cbv zeta in IHn. destruct (loop n _ (M, O)) as [M1 l1] eqn:EL. cbn [fst snd] in *. destruct IHn as (I1 & I2 & I3 & I4).
    rewrite upto_S. unfold rowB. cbn [sum]. unfold isActive. destruct (zeroR (bM B n)) eqn:Z; cbn [negb].
    + cbn [fst snd]. split; [exact I1|]. split; [exact I2|]. split; [exact I3|]. intros r. rewrite I4. unfold rowB. destruct (r =? colRow M + m)%nat; auto. unfold isActive. destruct nonLinear; ring.
    + cbn [fst snd addB addE mE mB colRow]. rewrite app_length. cbn [length]. split; [lia|]. split; [exact I2|]. split.
      * intros r c. unfold upd2. rewrite I2, at_snoc, I1. destruct (Nat.eqb_spec r (colRow M + m)) as [->|Nr]; cbn [andb].
        -- destruct (Nat.eqb_spec c (colRow M + length (upto B n))) as [->|Nc].
           ++ rewrite I3, Nat.eqb_refl. rewrite at_out by lia. ring.
           ++ now rewrite I3, Nat.eqb_refl.
        -- rewrite I3. apply Nat.eqb_neq in Nr. now rewrite Nr.
      * intros r. unfold upd. rewrite I2. destruct (Nat.eqb_spec r (colRow M + m)) as [->|Nr].
        -- rewrite I4, Nat.eqb_refl. unfold rowB, isActive. destruct nonLinear; ring.
        -- rewrite I4. apply Nat.eqb_neq in Nr. now rewrite Nr.
Qed.
Lemma fillRow_spec B j m M :
  colRow (fillRow nonLinear B j m M) = colRow M /\
  (forall r c, mE (fillRow nonLinear B j m M) r c = mE M r c + (if Nat.eqb r (colRow M + m) then match at_ (colRow M) (active B) c with Some k => bD2p B j k | None => 0 end else 0)) /\
  (forall r, mB (fillRow nonLinear B j m M) r = mB M r + (if Nat.eqb r (colRow M + m) then rowB B (bN B) j else 0)).
Proof. exact (proj2 (fillRow_n B j m M (bN B))). Qed.

(** what a block adds: to the matrix, to the vector *)
Definition blockE (B : Block) (n base r c : nat) : R :=
  match at_ base (upto B n) r, at_ base (upto B n) c, at_ base (active B) c with
  | Some j, _, Some k => bD2p B j k
  | Some j, _, None => if isIdx c then bX B j else 0
  | None, Some k, _ => if isIdx r then bX B k else 0
  | _, _, _ => 0
  end.
Definition blockB (B : Block) (n base r : nat) : R := match at_ base (upto B n) r with Some j => - bDp B j + rowB B (bN B) j | None => 0 end.

Lemma upto_length B n k : (n <= k)%nat -> (length (upto B n) <= length (upto B k))%nat.
Proof. intros H. induction H; auto. rewrite upto_S. destruct (isActive B m); [rewrite app_length; cbn|]; lia. Qed.
Lemma upto_prefix B n k : (n <= k)%nat -> exists l, upto B k = upto B n ++ l.
Proof. intros H. induction H; [exists []; now rewrite app_nil_r|]. destruct IHle as [l E]. rewrite upto_S. destruct (isActive B m); [exists (l ++ [m]); rewrite E; now rewrite app_assoc|now exists l]. Qed.
Lemma at_upto B n base r j : (n <= bN B)%nat -> at_ base (upto B n) r = Some j -> at_ base (active B) r = Some j.
Proof.
  intros H E. destruct (upto_prefix B n (bN B) H) as [l El]. unfold active. rewrite El. unfold at_ in *. destruct (base <=? r)%nat; [|discriminate].
  rewrite nth_error_app1; auto. apply nth_error_Some. congruence.
Qed.

Lemma fillRows_n (B : Block) (M : Mats) n : (n <= bN B)%nat ->
  (forall i, idx = Some i -> (colRow M + length (active B) <= i)%nat) ->
  let L := loop n (fun j Mm =>
    let '(M, m) := Mm in
    if zeroR (bM B j) then (M, m)
    else let M := addB (colRow M + m) (- bDp B j) M in
         let M := fillRow nonLinear B j m M in
         let M := match idx with Some i => addE i (colRow M + m) (bX B j) (addE (colRow M + m) i (bX B j) M) | None => M end in
         (M, S m)) (M, O) in
  snd L = length (upto B n) /\ colRow (fst L) = colRow M /\
  (forall r c, mE (fst L) r c = mE M r c + blockE B n (colRow M) r c) /\
  (forall r, mB (fst L) r = mB M r + blockB B n (colRow M) r).
Proof.
  intros Hn Hi. induction n; cbv zeta.
  - cbn [loop fst snd]. split; [reflexivity|]. split; [reflexivity|].
    assert (A0 : forall r, at_ (colRow M) (upto B 0) r = None) by (intros r; unfold at_; cbn; destruct (colRow M <=? r)%nat; [destruct (r - colRow M)%nat|]; reflexivity).
    split; intros; unfold blockE, blockB; rewrite !A0; ring.
  - cbn [loop]. specialize (IHn ltac:(lia)). cbv zeta in IHn. destruct (loop n _ (M, O)) as [M1 m1] eqn:EL. cbn [fst snd] in *. destruct IHn as (I1 & I2 & I3 & I4).
    destruct (zeroR (bM B n)) eqn:Z.
    { assert (U : upto B (S n) = upto B n) by (rewrite upto_S; unfold isActive; now rewrite Z). unfold blockE, blockB in *. rewrite U. auto. }
    assert (U : upto B (S n) = upto B n ++ [n]) by (rewrite upto_S; unfold isActive; now rewrite Z).
    assert (Len : (length (upto B n) < length (active B))%nat).
    { pose proof (upto_length B (S n) (bN B) Hn) as Q. rewrite U, app_length in Q. cbn in Q. unfold active. lia. }
    set (M2 := addB (colRow M1 + m1) (- bDp B n) M1). destruct (fillRow_spec B n m1 M2) as (F1 & F2 & F3). set (M3 := fillRow nonLinear B n m1 M2) in *.
    assert (C2 : colRow M2 = colRow M) by (unfold M2; cbn; exact I2). rewrite C2 in *.
    assert (AtN : at_ (colRow M) (active B) (colRow M + length (upto B n)) = Some n).
    { apply (at_upto B (S n)); auto. rewrite U, at_snoc. now rewrite Nat.eqb_refl. }
    assert (E3 : forall r c, mE M3 r c = mE M r c + blockE B n (colRow M) r c + (if Nat.eqb r (colRow M + m1) then match at_ (colRow M) (active B) c with Some k => bD2p B n k | None => 0 end else 0)).
    { intros r c. rewrite F2. unfold M2. cbn [addB mE]. rewrite I3. reflexivity. }
    assert (B3 : forall r, mB M3 r = mB M r + blockB B n (colRow M) r + (if Nat.eqb r (colRow M + m1) then - bDp B n + rowB B (bN B) n else 0)).
    { intros r. rewrite F3. unfold M2. cbn [addB mB]. unfold upd. rewrite I2. destruct (Nat.eqb_spec r (colRow M + m1)) as [->|]; rewrite I4; ring. }
    set (M4 := match idx with Some i => addE i (colRow M3 + m1) (bX B n) (addE (colRow M3 + m1) i (bX B n) M3) | None => M3 end).
    assert (C4 : colRow M4 = colRow M) by (unfold M4; destruct idx; cbn [addE colRow]; now rewrite F1).
    assert (B4 : forall r, mB M4 r = mB M3 r) by (intros r; unfold M4; destruct idx; reflexivity).
    assert (E4 : forall r c, mE M4 r c = mE M3 r c + (if Nat.eqb r (colRow M + m1) && isIdx c then bX B n else 0) + (if isIdx r && Nat.eqb c (colRow M + m1) then bX B n else 0)).
    { intros r c. unfold M4, isIdx. destruct idx as [i|]; [|rewrite !andb_false_r; cbn [andb]; ring].
      cbn [addE mE]. rewrite F1. specialize (Hi i eq_refl). unfold upd2.
      destruct (Nat.eqb_spec r i) as [->|Nr]; cbn [andb].
      - replace (i =? colRow M + m1)%nat with false by (symmetry; apply Nat.eqb_neq; lia). cbn [andb].
        destruct (Nat.eqb_spec c (colRow M + m1)) as [->|]; ring.
      - destruct (Nat.eqb_spec r (colRow M + m1)) as [->|]; cbn [andb]; [destruct (Nat.eqb_spec c i) as [->|]|]; ring. }
    cbn [fst snd]. split; [rewrite U, app_length; cbn; lia|]. split; [exact C4|]. split.
    + intros r c. rewrite E4, E3. unfold blockE. rewrite U, !at_snoc, <- I1.
      destruct (Nat.eqb_spec r (colRow M + m1)) as [->|Nr]; cbn [andb].
      * rewrite (at_out _ (upto B n)) by lia.
        assert (Ri : isIdx (colRow M + m1) = false) by (unfold isIdx; destruct idx as [i|]; auto; specialize (Hi i eq_refl); apply Nat.eqb_neq; lia).
        rewrite Ri. cbn [andb]. destruct (at_ (colRow M) (active B) c) as [k|] eqn:Ac.
        -- assert (Ci : isIdx c = false) by (apply at_in in Ac; unfold isIdx; destruct idx as [i|]; auto; specialize (Hi i eq_refl); apply Nat.eqb_neq; lia). rewrite Ci.
           destruct (at_ (colRow M) (upto B n) c); ring.
        -- destruct (at_ (colRow M) (upto B n) c) eqn:An; [apply at_upto in An; [congruence|lia]|]. destruct (isIdx c); ring.
      * destruct (Nat.eqb_spec c (colRow M + m1)) as [->|Nc].
        -- destruct (at_ (colRow M) (upto B n) r) as [j|] eqn:Ar.
           ++ assert (Ri : isIdx r = false) by (apply (at_upto B n) in Ar; [|lia]; apply at_in in Ar; unfold isIdx; destruct idx as [i|]; auto; specialize (Hi i eq_refl); apply Nat.eqb_neq; lia).
              rewrite Ri. cbn [andb]. ring.
           ++ rewrite (at_out _ (upto B n) (colRow M + m1)) by lia. destruct (isIdx r); cbn [andb]; ring.
        -- rewrite andb_false_r. destruct (at_ (colRow M) (upto B n) r); ring.
    + intros r. rewrite B4, B3. unfold blockB. rewrite U, at_snoc, <- I1. destruct (Nat.eqb_spec r (colRow M + m1)) as [->|]; [|ring]. rewrite (at_out _ (upto B n)) by lia. ring.
Qed.

(** ** One block *)
Definition wholeE (B : Block) (l : list nat) (base r c : nat) : R :=
  match at_ base l r, at_ base l c with
  | Some j, Some k => bD2p B j k
  | Some j, None => if isIdx c then bX B j else 0
  | None, Some k => if isIdx r then bX B k else 0
  | None, None => if isIdx r && isIdx c then bTT B else 0
  end.
Definition wholeB (B : Block) (l : list nat) (base r : nat) : R :=
  match at_ base l r with Some j => - bDp B j + rowB B (bN B) j | None => if isIdx r then - bT B else 0 end.
Lemma fillMix_spec B M : (forall i, idx = Some i -> (colRow M + length (active B) <= i)%nat) ->
  colRow (fillMix nonLinear idx B M) = (colRow M + length (active B))%nat /\
  (forall r c, mE (fillMix nonLinear idx B M) r c = mE M r c + wholeE B (active B) (colRow M) r c) /\
  (forall r, mB (fillMix nonLinear idx B M) r = mB M r + wholeB B (active B) (colRow M) r).
Proof.
  intros Hi. pose proof (fillRows_n B M (bN B) (le_n _) Hi) as F. cbv zeta in F. unfold fillMix, fillRows.
  destruct (loop (bN B) _ (M, O)) as [M1 m1]. cbn [fst snd] in F. fold (active B) in F. destruct F as (F1 & F2 & F3 & F4).
  assert (Q : forall r c, blockE B (bN B) (colRow M) r c = match at_ (colRow M) (active B) r, at_ (colRow M) (active B) c with
    | Some j, Some k => bD2p B j k | Some j, None => if isIdx c then bX B j else 0 | None, Some k => if isIdx r then bX B k else 0 | None, None => 0 end).
  { intros r c. unfold blockE. fold (active B). destruct (at_ (colRow M) (active B) r); destruct (at_ (colRow M) (active B) c); reflexivity. }
  unfold wholeE, wholeB. unfold blockB in F4. fold (active B) in F4. destruct idx as [i|] eqn:Ei.
  - specialize (Hi i eq_refl). cbn [addE addB colRow mE mB]. split; [lia|]. assert (Ai : at_ (colRow M) (active B) i = None) by (apply at_out; lia). split.
    + intros r c. unfold upd2. rewrite !F3, !Q. unfold isIdx. rewrite Ei. destruct (Nat.eqb_spec r i) as [->|]; cbn [andb].
      * rewrite Ai. destruct (Nat.eqb_spec c i) as [->|]; [rewrite Ai; ring|]. destruct (at_ (colRow M) (active B) c); reflexivity.
      * reflexivity.
    + intros r. unfold upd. rewrite !F4. unfold isIdx. rewrite Ei. destruct (Nat.eqb_spec r i) as [->|]; [rewrite Ai; ring|reflexivity].
  - cbn [colRow mE mB]. split; [lia|]. split.
    + intros r c. rewrite F3, Q. unfold isIdx. rewrite Ei. reflexivity.
    + intros r. rewrite F4. unfold isIdx. rewrite Ei. reflexivity.
Qed.
(** rowB is zero for a pure solid, which adds no such term *)
Lemma fillPure_spec B M : (forall j k, bD2p B j k = 0) -> (forall i, idx = Some i -> (colRow M + 1 <= i)%nat) ->
  colRow (fillPure idx B M) = (colRow M + length [O])%nat /\
  (forall r c, mE (fillPure idx B M) r c = mE M r c + wholeE B [O] (colRow M) r c) /\
  (forall r, mB (fillPure idx B M) r = mB M r + wholeB B [O] (colRow M) r).
Proof.
  intros HD Hi. assert (RB : forall j, rowB B (bN B) j = 0).
  { intros j. unfold rowB. destruct nonLinear; auto. apply sum_0. intros k _. rewrite HD. destruct (isActive B k); ring. }
  assert (A : forall r, at_ (colRow M) [O] r = if Nat.eqb r (colRow M) then Some O else None).
  { intros r. change [O] with ([] ++ [O]). rewrite at_snoc. cbn [length]. rewrite Nat.add_0_r. destruct (r =? colRow M)%nat; auto. unfold at_. destruct (colRow M <=? r)%nat; auto. now destruct (r - colRow M)%nat. }
  unfold fillPure, wholeE, wholeB. cbn [length]. destruct idx as [i|] eqn:Ei.
  - specialize (Hi i eq_refl). cbn [addE addB colRow mE mB]. split; [lia|]. assert (Ni : (i =? colRow M)%nat = false) by (apply Nat.eqb_neq; lia). split.
    + intros r c. rewrite !A. unfold upd2, isIdx. rewrite Ei. destruct (Nat.eqb_spec r i) as [->|Nr]; cbn [andb].
      * rewrite Ni. cbn [andb]. destruct (Nat.eqb_spec c i) as [->|Nc].
        -- rewrite Ni. rewrite ?Ni, ?andb_false_r. cbn [andb]. ring.
        -- destruct (Nat.eqb_spec c (colRow M)) as [->|]; ring.
      * destruct (Nat.eqb_spec r (colRow M)) as [->|]; cbn [andb].
        -- destruct (Nat.eqb_spec c i) as [->|Nc]; [rewrite Ni; ring|]. destruct (c =? colRow M)%nat; rewrite ?HD; ring.
        -- destruct (Nat.eqb_spec c (colRow M)) as [->|]; ring.
    + intros r. rewrite A. unfold upd, isIdx. rewrite Ei. destruct (Nat.eqb_spec r i) as [->|Nr].
      * rewrite Ni. ring.
      * destruct (Nat.eqb_spec r (colRow M)) as [->|]; rewrite ?RB; ring.
  - cbn [addE addB colRow mE mB]. split; [lia|]. split.
    + intros r c. rewrite !A. unfold isIdx. rewrite Ei. cbn [andb]. destruct (r =? colRow M)%nat; destruct (c =? colRow M)%nat; rewrite ?HD; ring.
    + intros r. rewrite A. unfold upd, isIdx. rewrite Ei. destruct (Nat.eqb_spec r (colRow M)) as [->|]; rewrite ?RB; ring.
Qed.
End F.
