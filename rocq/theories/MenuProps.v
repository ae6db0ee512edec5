(** Theorems about the choice of version and the suppressed phases (MenuModel.v). *)
From Coq Require Import String List Arith Bool ZArith Lia.
Local Open Scope nat_scope.
Import ListNotations.
From Verif Require Import InitModel PlotModel PlotProps MenuModel.

(** *** the list of suppressed phases *)
Lemma set_spec chosen : forall types i j inc q,
  setSuppressed types i j chosen inc q = if (Nat.leb j q && Nat.ltb q (j + count types))%bool then negb (chosen (i + kth types (q - j))) else inc q.
Proof.
  induction types as [|b ts IH]; intros i j inc q.
  - cbn [setSuppressed]. change (count []) with 0. rewrite Nat.add_0_r. destruct (Nat.leb_spec j q); destruct (Nat.ltb_spec q j); cbn [andb]; try lia; reflexivity.
  - cbn [setSuppressed]. unfold count, kth in *. rewrite rows_cons, app_length, map_length. destruct b; cbn [length app plus].
    + rewrite IH. destruct (Nat.eqb_spec q j) as [E|E].
      * subst q. destruct (Nat.leb_spec (S j) j); [lia|]. rewrite Nat.leb_refl. destruct (Nat.ltb_spec j (j + S (length (phaseRows ts)))); [|lia].
        cbn [andb]. rewrite Nat.sub_diag. cbn [nth]. rewrite Nat.add_0_r. reflexivity.
      * destruct (Nat.leb_spec (S j) q); destruct (Nat.leb_spec j q); try lia; cbn [andb]; [|reflexivity].
        destruct (Nat.ltb_spec q (S j + length (phaseRows ts))); destruct (Nat.ltb_spec q (j + S (length (phaseRows ts)))); try lia; [|reflexivity].
        replace (q - j)%nat with (S (q - S j)) by lia. cbn [nth].
        rewrite (nth_indep (map S (phaseRows ts)) 0%nat 1%nat) by (rewrite map_length; lia). rewrite map_nth. f_equal. f_equal. lia.
    + rewrite IH. destruct (Nat.leb_spec j q); cbn [andb]; [|reflexivity]. destruct (Nat.ltb_spec q (j + length (phaseRows ts))); [|reflexivity].
      rewrite (nth_indep (map S (phaseRows ts)) 0%nat 1%nat) by (rewrite map_length; lia). rewrite map_nth. f_equal. f_equal. lia.
Qed.
Lemma clear_spec : forall types j inc q,
  clearSuppressed types j inc q = if (Nat.leb j q && Nat.ltb q (j + count types))%bool then true else inc q.
Proof.
  induction types as [|b ts IH]; intros j inc q.
  - cbn [clearSuppressed]. change (count []) with 0. rewrite Nat.add_0_r. destruct (Nat.leb_spec j q); destruct (Nat.ltb_spec q j); cbn [andb]; try lia; reflexivity.
  - cbn [clearSuppressed]. unfold count in *. rewrite rows_cons, app_length, map_length. destruct b; cbn [length app plus]; rewrite IH.
    + destruct (Nat.eqb_spec q j) as [E|E].
      * subst q. destruct (Nat.leb_spec (S j) j); [lia|]. rewrite Nat.leb_refl. destruct (Nat.ltb_spec j (j + S (length (phaseRows ts)))); [reflexivity|lia].
      * destruct (Nat.leb_spec (S j) q); destruct (Nat.leb_spec j q); try lia; cbn [andb]; [|reflexivity].
        destruct (Nat.ltb_spec q (S j + length (phaseRows ts))); destruct (Nat.ltb_spec q (j + S (length (phaseRows ts)))); try lia; reflexivity.
    + reflexivity.
Qed.
Lemma selection_spec sel : forall rows cnt, (cnt + length rows <= places)%nat -> NoDup rows ->
  exists l, selection rows cnt sel = Some l /\ (forall p, In p l -> In p rows) /\ forall k, (k < length rows)%nat -> (existsb (Nat.eqb (nth k rows 0%nat)) l = sel (cnt + k)%nat).
Proof.
  induction rows as [|p r IH]; intros cnt H N; [exists []; repeat split; [intros p []|intros k Hk; cbn in Hk; lia]|].
  inversion N as [|? ? N1 N2]; subst. cbn [length] in H. destruct (IH (S cnt) ltac:(lia) N2) as (l & A & B & C). cbn [selection]. rewrite A.
  destruct (Nat.leb_spec places cnt); [lia|]. exists (if sel cnt then p :: l else l). split; [reflexivity|]. split.
  - intros q Hq. destruct (sel cnt); [destruct Hq as [Hq|Hq]; [left; exact Hq|]|]; right; apply B, Hq.
  - assert (Np : existsb (Nat.eqb p) l = false).
    { destruct (existsb (Nat.eqb p) l) eqn:E; [|reflexivity]. apply existsb_exists in E. destruct E as (q & Q1 & Q2). apply Nat.eqb_eq in Q2. subst q. exfalso. apply N1, B, Q1. }
    intros [|k] Hk; cbn [nth].
    + rewrite Nat.add_0_r. destruct (sel cnt); [cbn; rewrite Nat.eqb_refl; reflexivity|exact Np].
    + cbn [length] in Hk. specialize (C k ltac:(lia)). replace (cnt + S k)%nat with (S cnt + k)%nat by lia. rewrite <- C.
      destruct (sel cnt); [|reflexivity]. cbn [existsb]. destruct (Nat.eqb_spec (nth k r 0%nat) p) as [E|E]; [|reflexivity].
      exfalso. apply N1. rewrite <- E. apply nth_In. lia.
Qed.
(** C223: the Suppress button excludes exactly the ticked phases, whatever was excluded before, and leaves the liquid's flag
    (any other cell) alone *)
Theorem C223 : forall types sel inc, (count types <= places)%nat ->
  exists inc', suppress types sel inc = Some inc' /\
  (forall k, (k < count types)%nat -> inc' k = negb (sel k)) /\ (forall q, (count types <= q)%nat -> inc' q = inc q).
Proof.
  intros types sel inc H. unfold suppress. destruct (selection_spec sel (phaseRows types) 0 H (rows_nodup types)) as (l & A & B & C). rewrite A.
  eexists. split; [reflexivity|]. split.
  - intros k Hk. rewrite set_spec. cbn [Nat.leb plus andb]. destruct (Nat.ltb_spec k (count types)); [|lia]. rewrite Nat.sub_0_r. f_equal.
    unfold kth. exact (C k Hk).
  - intros q Hq. rewrite set_spec. cbn [Nat.leb plus andb]. destruct (Nat.ltb_spec q (count types)); [lia|reflexivity].
Qed.
(** C223: and Reset includes them all again *)
Theorem C223_reset : forall types inc k, (k < count types)%nat -> clearSuppressed types 0 inc k = true.
Proof. intros types inc k Hk. rewrite clear_spec. cbn [Nat.leb plus andb]. destruct (Nat.ltb_spec k (count types)); [reflexivity|lia]. Qed.
Lemma tick_spec inc : forall types j sel, (j + count types <= places)%nat ->
  exists sel', tick types j inc sel = Some sel' /\ forall q, sel' q = if (Nat.leb j q && Nat.ltb q (j + count types))%bool then (negb (inc q) || sel q)%bool else sel q.
Proof.
  induction types as [|b ts IH]; intros j sel H.
  - exists sel. split; [reflexivity|]. intros q. change (count []) with 0. rewrite Nat.add_0_r. destruct (Nat.leb_spec j q); destruct (Nat.ltb_spec q j); cbn [andb]; try lia; reflexivity.
  - unfold count in *. rewrite rows_cons, app_length, map_length in H. rewrite rows_cons, app_length, map_length. destruct b; cbn [length plus] in *; cbn [tick].
    + assert (K : exists s1, (if inc j then tick ts (S j) inc sel else if Nat.leb places j then None else tick ts (S j) inc (fun q => if Nat.eqb q j then true else sel q)) = tick ts (S j) inc s1 /\
        forall q, s1 q = if Nat.eqb q j then (negb (inc j) || sel j)%bool else sel q).
      { destruct (inc j); [exists sel; split; [reflexivity|intros q; destruct (Nat.eqb_spec q j); [subst q; reflexivity|reflexivity]]|].
        destruct (Nat.leb_spec places j); [lia|]. eexists. split; [reflexivity|]. intros q. cbv beta. destruct (Nat.eqb q j); reflexivity. }
      destruct K as (s1 & -> & K). destruct (IH (S j) s1 ltac:(lia)) as (s2 & A & B). exists s2. split; [exact A|]. intros q. rewrite B, K.
      destruct (Nat.eqb_spec q j) as [E|E].
      * subst q. destruct (Nat.leb_spec (S j) j); [lia|]. rewrite Nat.leb_refl. destruct (Nat.ltb_spec j (j + S (length (phaseRows ts)))); [reflexivity|lia].
      * destruct (Nat.leb_spec (S j) q); destruct (Nat.leb_spec j q); try lia; cbn [andb]; [|reflexivity].
        destruct (Nat.ltb_spec q (S j + length (phaseRows ts))); destruct (Nat.ltb_spec q (j + S (length (phaseRows ts)))); try lia; reflexivity.
    + destruct (IH j sel ltac:(lia)) as (s2 & A & B). exists s2. split; [exact A|exact B].
Qed.
(** C223: after a file is loaded the menu ticks exactly what the file switched off, and the exclusions stay as loaded *)
Theorem C223_load : forall types inc, (count types <= places)%nat -> exists sel inc', afterLoad types inc = Some (sel, inc') /\
  (forall k, (k < count types)%nat -> sel k = negb (inc k)) /\ (forall q, inc' q = inc q).
Proof.
  intros types inc H. unfold afterLoad. destruct (tick_spec inc types 0 (fun _ => false) H) as (sel & A & B). rewrite A.
  destruct (C223 types sel inc H) as (inc' & C & D & E). rewrite C. exists sel, inc'. split; [reflexivity|].
  assert (S : forall k, (k < count types)%nat -> sel k = negb (inc k)).
  { intros k Hk. rewrite B. cbn [Nat.leb plus andb]. destruct (Nat.ltb_spec k (count types)); [|lia]. apply orb_false_r. }
  split; [exact S|]. intros q. destruct (Nat.lt_ge_cases q (count types)) as [Q|Q]; [|apply E, Q].
  rewrite D, S by exact Q. apply negb_involutive.
Qed.
(** C223: the 42 places are enough in every version the menu offers - just, in MELTS 1.1.0 and 1.2.0 *)
Theorem C223_room : forall v t, (1 <= v <= 4)%Z -> tablesOf v = Some t -> (count (phaseTypes t) <= places)%nat.
Proof.
  intros v t Hv H. unfold tablesOf in H.
  destruct (Z.eqb v 1); [injection H as <-; apply Nat.leb_le; vm_compute; reflexivity|].
  destruct (Z.eqb v 3 || Z.eqb v 4)%bool; [injection H as <-; apply Nat.leb_le; vm_compute; reflexivity|].
  destruct (Z.eqb v 2); [injection H as <-; apply Nat.leb_le; vm_compute; reflexivity|discriminate].
Qed.
(** the bound is met: one more phase and the last box would be outside *)
Theorem C223_tight : count (phaseTypes mode_meltsFluid) = places.
Proof. vm_compute. reflexivity. Qed.

(** *** the version *)
Section Version.
Variable A : Type.
Variable name : Mode -> nat -> A.
(** C222: for a first choice of version the k-th name is that of the k-th phase of its table *)
Theorem C222_first : forall v k d t, (1 <= v <= 4)%Z -> tablesOf v = Some t -> (k < count (phaseTypes t))%nat ->
  let s := initialize A name v (fresh A) in
  nTab A s = t /\ length (nVec A s) = count (phaseTypes t) /\ nth k (nVec A s) d = name t (kth (phaseTypes t) k) /\ nCalc A s = nVer A s.
Proof.
  intros v k d t Hv Ht Hk. cbv zeta. unfold initialize. destruct (Z.ltb_spec 4 v); [lia|]. destruct (Z.ltb_spec v 1); [lia|]. cbn [orb]. rewrite Ht.
  cbn [nTab nVec nCalc nVer fresh]. destruct (C222_partial A (name t) (phaseTypes t) k d Hk) as (A1 & A2 & _).
  repeat split; assumption.
Qed.
(** the map of names is right after any number of choices *)
Theorem C222_map : forall v s t, tablesOf (if (Z.ltb 4 v || Z.ltb v 1)%bool then 1%Z else v) = Some t ->
  forall i x, In (i, x) (nMap A (initialize A name v s)) <-> (nth i (phaseTypes t) false = true /\ x = name t i).
Proof.
  intros v s t Ht i x. unfold initialize. rewrite Ht. cbn [nMap]. rewrite in_map_iff. split.
  - intros (j & E & Hj). injection E as <- <-. unfold phaseRows in Hj. apply filter_In in Hj. split; [apply Hj|reflexivity].
  - intros (H & ->). exists i. split; [reflexivity|]. unfold phaseRows. apply filter_In. split; [|exact H].
    apply in_seq. destruct (Nat.lt_ge_cases i (length (phaseTypes t))) as [Q|Q]; [lia|]. rewrite nth_overflow in H by exact Q. discriminate.
Qed.
End Version.
(** C222: the list is appended to.  After a second choice - pMELTS, then MELTS 1.2.0 - it is too long and its k-th name is not
    that of the k-th phase *)
Definition labelIn (m : Mode) (i : nat) : String.string := fst (fst (nth i (mSol m) (""%string, false, ""%string))).
Theorem C222_refuted : exists v w k t, (1 <= v <= 4)%Z /\ (1 <= w <= 4)%Z /\ tablesOf w = Some t /\ (k < count (phaseTypes t))%nat /\
  let s := initialize _ labelIn w (initialize _ labelIn v (fresh _)) in
  nTab _ s = t /\ nth k (nVec _ s) ""%string <> labelIn t (kth (phaseTypes t) k) /\ length (nVec _ s) <> count (phaseTypes t).
Proof.
  pose (bad := fun k => negb (String.eqb (nth k (nVec _ (initialize _ labelIn 4 (initialize _ labelIn 2 (fresh _)))) ""%string) (labelIn mode_meltsFluid (kth (phaseTypes mode_meltsFluid) k)))).
  assert (E : existsb bad (seq 0 (count (phaseTypes mode_meltsFluid))) = true) by (vm_compute; reflexivity).
  apply existsb_exists in E. destruct E as (k & Hk & Hb). apply in_seq in Hk.
  exists 2%Z, 4%Z, k, mode_meltsFluid. split; [lia|]. split; [lia|]. split; [reflexivity|]. split; [lia|]. cbv zeta. split; [reflexivity|]. split.
  - unfold bad in Hb. apply negb_true_iff in Hb. apply String.eqb_neq in Hb. exact Hb.
  - vm_compute. discriminate.
Qed.
