(** * C27, C68, C69: what the exported spreadsheet contains *)

From Coq Require Import String Reals List Arith Bool Lia.
From Verif Require Import XlsxModel.
Import ListNotations.
Open Scope string_scope.
Open Scope list_scope.
Open Scope nat_scope.

(** ** Specification *)

(** Row r holds exactly these cells, from column 0, and nothing to the right of them. *)
Definition rowIs (sh : Sheet) (r : nat) (l : list (option Cell)) : Prop :=
  forall c, sh r c = nth c l None.

Definition blanks (n : nat) : list (option Cell) := repeat None n.
Definition strs (l : list string) : list (option Cell) := map (fun s => Some (Str s)) l.
Definition nums (l : list R) : list (option Cell) := map (fun x => Some (Num (Some x))) l.
Definition upTo (n : nat) : list nat := seq 0 n.

(** Sum of the masses of all occurrences of a phase in a list. *)
Definition sumR (l : list R) : R := fold_right Rplus 0%R l.
Definition total (toFloat : R -> R) (l : list Phase) (i : nat) : R :=
  sumR (map (fun p => toFloat (pMass p)) (filter (fun p => pPos p =? i) l)).

(** The phases that occur in at least one step, in the order of the phase list. *)
Definition present (NP : nat) (f : Data -> list Phase) (data : list Data) : list nat :=
  filter (fun i => existsb (fun d => existsb (fun p => pPos p =? i) (f d)) data) (upTo NP).

Lemma present_In : forall NP f data i,
  In i (present NP f data) <->
  (i < NP /\ exists d p, In d data /\ In p (f d) /\ pPos p = i).
Proof.
  intros NP f data i. unfold present, upTo. rewrite filter_In, in_seq.
  rewrite existsb_exists. split.
  - intros [H [d [Hd He]]]. apply existsb_exists in He. destruct He as [p [Hp E]].
    apply Nat.eqb_eq in E. split; [lia |]. exists d, p. auto.
  - intros [H (d & p & Hd & Hp & E)]. split; [lia |]. exists d. split; [exact Hd |].
    apply existsb_exists. exists p. split; [exact Hp | apply Nat.eqb_eq; exact E].
Qed.

(** ** Worksheet lemmas *)

Lemma rowIs_empty : forall r, rowIs emptySheet r [].
Proof. intros r c. destruct c; reflexivity. Qed.

Lemma rowIs_blank : forall sh r l, rowIs sh r l -> rowIs sh r (l ++ [None]).
Proof.
  intros sh r l H c. rewrite H. destruct (Nat.lt_ge_cases c (length l)) as [L | L].
  - rewrite app_nth1 by assumption. reflexivity.
  - rewrite app_nth2 by assumption. rewrite nth_overflow by assumption.
    destruct (c - length l) as [| [| m]]; reflexivity.
Qed.

Lemma rowIs_blanks : forall n sh r l, rowIs sh r l -> rowIs sh r (l ++ blanks n).
Proof.
  induction n as [| n IH]; intros sh r l H.
  - cbn. rewrite app_nil_r. exact H.
  - replace (l ++ blanks (S n)) with ((l ++ [None]) ++ blanks n) by (rewrite <- app_assoc; reflexivity).
    apply IH. apply rowIs_blank. exact H.
Qed.

Lemma rowIs_other : forall sh r l r' c v, rowIs sh r l -> r <> r' -> rowIs (put sh r' c v) r l.
Proof.
  intros sh r l r' c v H N c'. unfold put. destruct (Nat.eqb_spec r r'); [contradiction |].
  cbn [andb]. apply H.
Qed.

Lemma rowIs_put : forall sh r l v, rowIs sh r l -> rowIs (put sh r (length l) v) r (l ++ [Some v]).
Proof.
  intros sh r l v H c. unfold put. rewrite Nat.eqb_refl. cbn [andb].
  destruct (Nat.eqb_spec c (length l)) as [E | E].
  - rewrite E, app_nth2, Nat.sub_diag by lia. reflexivity.
  - rewrite H. destruct (Nat.lt_ge_cases c (length l)) as [L | L].
    + rewrite app_nth1 by assumption. reflexivity.
    + rewrite nth_overflow by assumption. rewrite app_nth2 by assumption.
      destruct (c - length l) as [| m] eqn:D; [lia |]. destruct m; reflexivity.
Qed.

(** Writing into the padding. *)
Lemma rowIs_put_at : forall sh r l v c, rowIs sh r l -> length l <= c ->
  rowIs (put sh r c v) r (l ++ blanks (c - length l) ++ [Some v]).
Proof.
  intros sh r l v c H L. rewrite app_assoc.
  assert (E : length (l ++ blanks (c - length l)) = c)
    by (unfold blanks; rewrite app_length, repeat_length; lia).
  rewrite <- E at 1. apply rowIs_put. apply rowIs_blanks. exact H.
Qed.

Lemma put_put : forall sh r c v w r' c', put (put sh r c v) r c w r' c' = put sh r c w r' c'.
Proof. intros. unfold put. destruct ((r' =? r) && (c' =? c)); reflexivity. Qed.

Lemma rowIs_ext : forall sh sh' r l, (forall c, sh' r c = sh r c) -> rowIs sh r l -> rowIs sh' r l.
Proof. intros sh sh' r l E H c. rewrite E. apply H. Qed.

(** [putList] *)
Lemma putList_nil : forall sh row b, putList sh row b [] = sh.
Proof. reflexivity. Qed.
Lemma putList_cons : forall sh row b v l, putList sh row b (v :: l) = putList (put sh row b v) row (S b) l.
Proof. reflexivity. Qed.

Lemma rowIs_putList : forall l2 sh r l, rowIs sh r l ->
  rowIs (putList sh r (length l) l2) r (l ++ map Some l2).
Proof.
  induction l2 as [| v l2 IH]; intros sh r l H.
  - cbn. rewrite app_nil_r. exact H.
  - rewrite putList_cons. cbn [map].
    replace (l ++ Some v :: map Some l2) with ((l ++ [Some v]) ++ map Some l2)
      by (rewrite <- app_assoc; reflexivity).
    replace (S (length l)) with (length (l ++ [Some v])) by (rewrite app_length; cbn; lia).
    apply IH. apply rowIs_put. exact H.
Qed.

Lemma putList_other : forall l2 sh r b r' c, r' <> r -> putList sh r b l2 r' c = sh r' c.
Proof.
  induction l2 as [| v l2 IH]; intros sh r b r' c N; [reflexivity |].
  rewrite putList_cons, IH by assumption. unfold put.
  destruct (Nat.eqb_spec r' r); [contradiction | reflexivity].
Qed.

Lemma rowIs_putList_other : forall l2 sh r l r' b, rowIs sh r l -> r <> r' ->
  rowIs (putList sh r' b l2) r l.
Proof. intros l2 sh r l r' b H N c. rewrite putList_other by assumption. apply H. Qed.

Lemma putList_app : forall l1 l2 sh r b,
  putList sh r b (l1 ++ l2) = putList (putList sh r b l1) r (b + length l1) l2.
Proof.
  induction l1 as [| v l1 IH]; intros l2 sh r b.
  - cbn [length app]. rewrite Nat.add_0_r. reflexivity.
  - cbn [app length]. rewrite !putList_cons, IH. f_equal. lia.
Qed.

Section Sheets.
Variable NC : nat.
Variable ox : nat -> string.
Variable NP : nat.
Variable ph : nat -> string.
Variable toFloat : R -> R.
Variable positive : R -> bool.
Hypothesis NCpos : 0 < NC.

Lemma putOx_list : forall sh row base f, putOx NC sh row base f = putList sh row base (map f (upTo NC)).
Proof.
  intros sh row base f. unfold putOx, upTo.
  assert (G : forall n k sh, fold_left (fun sh i => put sh row (base + i) (f i)) (seq k n) sh
                             = putList sh row (base + k) (map f (seq k n))).
  { induction n as [| n IH]; intros k sh'; [reflexivity |].
    cbn [seq fold_left map]. rewrite putList_cons, IH. f_equal. lia. }
  rewrite G, Nat.add_0_r. reflexivity.
Qed.

Lemma putPhases_list : forall sh row base n0 e f,
  putPhases NP sh row base n0 e f
  = (putList sh row (base + n0) (map f (filter e (upTo NP))), n0 + length (filter e (upTo NP))).
Proof.
  intros sh row base n0 e f. unfold putPhases, upTo.
  assert (G : forall l sh n, fold_left (fun (st : Sheet * nat) i => let (sh, n) := st in
                         if e i then (put sh row (base + n) (f i), S n) else (sh, n)) l (sh, n)
     = (putList sh row (base + n) (map f (filter e l)), n + length (filter e l))).
  { induction l as [| i l IH]; intros sh' n.
    - cbn. rewrite Nat.add_0_r. reflexivity.
    - cbn [fold_left filter]. destruct (e i).
      + rewrite IH. cbn [map length]. rewrite putList_cons. f_equal; [f_equal; lia | lia].
      + apply IH. }
  apply G.
Qed.

Lemma countPhases_length : forall e, countPhases NP e = length (filter e (upTo NP)).
Proof.
  intros e. unfold countPhases, upTo.
  assert (G : forall l n, fold_left (fun n i => if e i then S n else n) l n = n + length (filter e l)).
  { induction l as [| i l IH]; intros n; [cbn; lia |].
    cbn [fold_left filter]. destruct (e i); rewrite IH; cbn [length]; lia. }
  rewrite G. reflexivity.
Qed.

Lemma massOf_total : forall l i, massOf toFloat l i = total toFloat l i.
Proof.
  intros l i. unfold massOf, total.
  assert (G : forall l a, fold_left (fun acc p => if pPos p =? i then (acc + toFloat (pMass p))%R else acc) l a
             = (a + sumR (map (fun p => toFloat (pMass p)) (filter (fun p => pPos p =? i) l)))%R).
  { induction l0 as [| p l0 IH]; intros a; unfold sumR in *; [cbn [fold_left filter map fold_right]; ring |].
    cbn [fold_left filter]. destruct (pPos p =? i); rewrite IH; [cbn [map fold_right]; ring | reflexivity]. }
  rewrite G. unfold sumR. ring.
Qed.

(** The loop that writes a first cell together with the first oxide. *)
Lemma firstLoop : forall n sh row c0 v base f, 
  fold_left (fun sh i => let sh := if i =? 0 then put sh row c0 v else sh in
                         put sh row (base + i) (f i)) (seq 0 (S n)) sh
  = putList (put sh row c0 v) row base (map f (seq 0 (S n))).
Proof.
  intros n sh row c0 v base f. cbn [seq fold_left map]. rewrite Nat.eqb_refl. cbv zeta.
  rewrite putList_cons, Nat.add_0_r.
  assert (G : forall m k sh, 0 < k ->
    fold_left (fun sh i => put (if i =? 0 then put sh row c0 v else sh) row (base + i) (f i)) (seq k m) sh
    = putList sh row (base + k) (map f (seq k m))).
  { induction m as [| m IH]; intros k sh' K; [reflexivity |].
    cbn [seq fold_left map]. destruct (Nat.eqb_spec k 0) as [E | E]; [lia |].
    rewrite putList_cons, IH by lia. f_equal. lia. }
  rewrite G by lia. f_equal. lia.
Qed.

Section OneFile.
Variable data : list Data.
Notation pS := (present NP dSol data).
Notation pF := (present NP dFrac data).
Notation pA := (present NP dAssim data).
Notation lf := (liqFractionated positive data).
Notation la := (liqAssimilated positive data).
Definition hasA : bool := (negb (length pA =? 0)) || la.

Lemma count_eq : forall f, countPhases NP (occurs f data) = length (present NP f data).
Proof. intros f. rewrite countPhases_length. reflexivity. Qed.
Lemma filter_occurs : forall f, filter (occurs f data) (upTo NP) = present NP f data.
Proof. reflexivity. Qed.

Lemma ltb_len : forall (l : list nat), (0 <? length l) = negb (length l =? 0).
Proof. intros l. destruct l; reflexivity. Qed.

(** *** The headings of the sheet "System" *)
Definition systemHead : list (option Cell) :=
  strs fixedHeadings ++ strs (map ox (upTo NC)) ++ strs (map ph pS) ++ strs (map ph pF)
  ++ (if lf then strs ["liquid (frac)"] else [])
  ++ (if hasA then strs ["assim T (C)"] else [])
  ++ strs (map ph pA).

Lemma strs_map : forall (A : Type) (f : A -> string) l, map Some (map (fun i => Str (f i)) l) = strs (map f l).
Proof. intros A f l. unfold strs. rewrite !map_map. reflexivity. Qed.
Lemma nums_map : forall (A : Type) (f : A -> R) l,
  map Some (map (fun i => Num (Some (f i))) l) = nums (map f l).
Proof. intros A f l. unfold nums. rewrite !map_map. reflexivity. Qed.
Lemma strs_len : forall l, length (strs l) = length l.
Proof. intros. apply map_length. Qed.
Lemma nums_len : forall l, length (nums l) = length l.
Proof. intros. apply map_length. Qed.
Lemma upTo_len : forall n, length (upTo n) = n.
Proof. intros. apply seq_length. Qed.

Ltac lens := rewrite ?app_length, ?strs_len, ?nums_len, ?map_length, ?upTo_len; cbn [length fixedHeadings];
             unfold START; try lia.

(** Appending cells at the end of a row that is complete so far. *)
Lemma append_row : forall sh r l b l2 l3, rowIs sh r l -> b = length l -> map Some l2 = l3 ->
  rowIs (putList sh r b l2) r (l ++ l3).
Proof. intros sh r l b l2 l3 H E1 E2. subst b l3. apply rowIs_putList. exact H. Qed.
Lemma append_one : forall sh r l b v, rowIs sh r l -> b = length l ->
  rowIs (put sh r b v) r (l ++ [Some v]).
Proof. intros sh r l b v H E. subst b. apply rowIs_put. exact H. Qed.

Lemma headings_row : rowIs (headings NC ox NP ph positive data emptySheet) 1
  (systemHead ++ if la then strs (map ox (upTo NC)) else []).
Proof.
  unfold headings. cbv zeta.
  rewrite !count_eq, !ltb_len.
  set (sh1 := wStr 0 START _ _).
  assert (R1 : rowIs sh1 1 (strs fixedHeadings)).
  { unfold sh1, wStr. repeat (apply rowIs_other; [| discriminate]).
    exact (rowIs_putList (map Str fixedHeadings) emptySheet 1 [] (rowIs_empty 1)). }
  match goal with |- context [putOx NC ?x 1 START] => set (sh2 := x) end.
  assert (R2 : rowIs sh2 1 (strs fixedHeadings)).
  { unfold sh2. unfold wStr.
    repeat match goal with |- context [if ?b then _ else _] => destruct b end;
      repeat (apply rowIs_other; [| discriminate]); exact R1. }
  clearbody sh2. clear R1 sh1.
  rewrite putOx_list, putPhases_list, filter_occurs.
  assert (R3 := append_row _ _ _ START (map (fun i => Str (ox i)) (upTo NC)) _ R2 eq_refl
                           (strs_map _ ox _)).
  assert (R4 := append_row _ _ _ (NC + START + 0) (map (fun i => Str (ph i)) pS) _ R3
                           ltac:(lens) (strs_map _ ph _)).
  set (sh4 := putList (putList sh2 1 START _) 1 (NC + START + 0) _) in *. clearbody sh4. clear R3 R2 sh2.
  remember ((strs fixedHeadings ++ strs (map ox (upTo NC))) ++ strs (map ph pS)) as h4 eqn:H4.
  assert (L4 : length h4 = NC + START + length pS) by (rewrite H4; lens).
  (* fractionated *)
  rewrite putPhases_list, filter_occurs.
  set (sh5 := if negb (length pF =? 0) then _ else _).
  assert (E5 : exists s5, sh5 = (s5, length pS + length pF) /\ rowIs s5 1 (h4 ++ strs (map ph pF))).
  { unfold sh5. destruct (Nat.eqb_spec (length pF) 0) as [Z | Z]; cbn [negb].
    - exists sh4. split; [f_equal; lia |].
      assert (Z' : pF = []) by (destruct pF; [reflexivity | discriminate]).
      rewrite Z'. cbn [map strs]. rewrite app_nil_r. exact R4.
    - eexists. split; [reflexivity |].
      apply (append_row _ _ _ _ _ _ R4); [lia | apply strs_map]. }
  destruct E5 as [s5 [E5 R5]]. rewrite E5. clear E5 sh5 R4 sh4.
  remember (h4 ++ strs (map ph pF)) as h5 eqn:H5.
  assert (L5 : length h5 = NC + START + (length pS + length pF)) by (rewrite H5, app_length, L4; lens).
  (* liquid *)
  set (sh6 := if lf then _ else _).
  assert (E6 : exists s6, sh6 = (s6, length pS + length pF + b2n lf) /\
               rowIs s6 1 (h5 ++ (if lf then strs ["liquid (frac)"] else []))).
  { unfold sh6. destruct lf; cbn [b2n].
    - eexists. split; [f_equal; lia |]. unfold wStr. apply append_one; [exact R5 | lia].
    - exists s5. split; [f_equal; lia |]. rewrite app_nil_r. exact R5. }
  destruct E6 as [s6 [E6 R6]]. rewrite E6. clear E6 sh6 R5 s5.
  remember (h5 ++ (if lf then strs ["liquid (frac)"] else [])) as h6 eqn:H6.
  assert (L6 : length h6 = NC + START + (length pS + length pF + b2n lf))
    by (rewrite H6, app_length, L5; destruct lf; cbn; lia).
  change (negb (length pA =? 0) || la) with hasA.
  set (sh7 := if hasA then _ else _).
  assert (E7 : exists s7, sh7 = (s7, length pS + length pF + b2n lf + b2n hasA) /\
               rowIs s7 1 (h6 ++ (if hasA then strs ["assim T (C)"] else []))).
  { unfold sh7. destruct hasA; cbn [b2n].
    - eexists. split; [f_equal; lia |]. unfold wStr. apply append_one; [exact R6 | lia].
    - exists s6. split; [f_equal; lia |]. rewrite app_nil_r. exact R6. }
  destruct E7 as [s7 [E7 R7]]. rewrite E7. clear E7 sh7 R6 s6.
  remember (h6 ++ (if hasA then strs ["assim T (C)"] else [])) as h7 eqn:H7.
  assert (L7 : length h7 = NC + START + (length pS + length pF + b2n lf + b2n hasA))
    by (rewrite H7, app_length, L6; destruct hasA; cbn; lia).
  rewrite putPhases_list, filter_occurs.
  set (sh8 := if negb (length pA =? 0) then _ else _).
  assert (SH : systemHead = h7 ++ strs (map ph pA)).
  { rewrite H7, H6, H5, H4. unfold systemHead. rewrite !app_assoc. reflexivity. }
  assert (E8 : exists s8, sh8 = (s8, length pS + length pF + b2n lf + b2n hasA + length pA) /\
               rowIs s8 1 systemHead).
  { unfold sh8. rewrite SH.
    destruct (Nat.eqb_spec (length pA) 0) as [Z | Z]; cbn [negb].
    - exists s7. split; [f_equal; lia |].
      assert (Z' : pA = []) by (destruct pA; [reflexivity | discriminate]).
      rewrite Z'. cbn [map strs]. rewrite app_nil_r. exact R7.
    - eexists. split; [reflexivity |].
      apply (append_row _ _ _ _ _ _ R7); [lia | apply strs_map]. }
  destruct E8 as [s8 [E8 R8]]. rewrite E8. clear E8 sh8 R7 s7.
  destruct la eqn:LA; [| rewrite app_nil_r; exact R8].
  destruct NC as [| m] eqn:NE; [lia |]. rewrite <- NE in *.
  set (b := NC + START + (length pS + length pF + b2n lf + b2n hasA + length pA)).
  assert (LB : b = length systemHead).
  { unfold b. rewrite SH, app_length, L7. lens. }
  rewrite NE. unfold wStr.
  (* same column: the second write wins *)
  eapply rowIs_ext.
  2: { rewrite <- NE. apply (append_row _ _ _ b (map (fun i => Str (ox i)) (upTo NC)) _ R8 LB (strs_map _ ox _)). }
  intros c. unfold upTo.
  assert (G : forall n k s s', (forall r c, s r c = s' r c) ->
    forall r c, fold_left (fun sh i => put (if i =? 0 then put sh 1 (b + i) (Str "liquid (assim)") else sh)
                                          1 (b + i) (Str (ox i))) (seq k n) s r c
    = putList s' 1 (b + k) (map (fun i => Str (ox i)) (seq k n)) r c).
  { induction n as [| n IH]; intros k s s' E r c0; [apply E |].
    cbn [seq fold_left map]. rewrite putList_cons. rewrite (IH (S k) _ (put s' 1 (b + k) (Str (ox k)))).
    - replace (b + S k) with (S (b + k)) by lia. reflexivity.
    - intros r' c'. destruct (k =? 0); [rewrite put_put |];
        unfold put; destruct ((r' =? 1) && (c' =? b + k)); try reflexivity; apply E. }
  specialize (G NC 0 s8 s8 (fun _ _ => eq_refl) 1 c).
  rewrite Nat.add_0_r in G. rewrite <- G. rewrite <- NE. reflexivity.
Qed.

(** *** The rows of the sheet "System" *)
Definition systemCells (k : nat) (d : Data) : list (option Cell) :=
  map Some (fixedCells k d)
  ++ nums (map (dBulk d) (upTo NC))
  ++ nums (map (total toFloat (dSol d)) pS)
  ++ nums (map (total toFloat (dFrac d)) pF)
  ++ (if lf then [Some (Num (dFracLiqMass d))] else [])
  ++ (if hasA then [option_map (fun t => Num (Some t)) (dAssimT d)] else [])
  ++ nums (map (total toFloat (dAssim d)) pA).

Definition rowBase (k : nat) (d : Data) (sh : Sheet) : Sheet :=
  let row := 2 + k in
  let sh := putList sh row 0 (fixedCells k d) in
  let sh := putOx NC sh row START (fun i => Num (Some (dBulk d i))) in
  let (sh, _) := putPhases NP sh row (NC + START) 0 (occurs dSol data) (fun i => Num (Some (massOf toFloat (dSol d) i))) in
  let (sh, _) := if 0 <? length pF
                 then putPhases NP sh row (NC + START + length pS) 0 (occurs dFrac data) (fun i => Num (Some (massOf toFloat (dFrac d) i)))
                 else (sh, 0) in
  let sh := if lf then wOpt row (NC + START + length pS + length pF) (dFracLiqMass d) sh else sh in
  let sh := match dAssimT d with
            | Some t => wNum row (NC + START + length pS + length pF + b2n lf) t sh
            | None => sh end in
  let (sh, _) := if 0 <? length pA
                 then putPhases NP sh row (NC + START + length pS + length pF + (if lf then 2 else 1)) 0 (occurs dAssim data)
                                (fun i => Num (Some (massOf toFloat (dAssim d) i)))
                 else (sh, 0) in sh.

Lemma mass_map : forall l ps, map Some (map (fun i => Num (Some (massOf toFloat l i))) ps)
                              = nums (map (total toFloat l) ps).
Proof.
  intros l ps. unfold nums. rewrite !map_map. apply map_ext. intros i. rewrite massOf_total. reflexivity.
Qed.

Lemma rowBase_is : forall sh k d, rowIs sh (2 + k) [] -> (hasA = false -> dAssimT d = None) ->
  rowIs (rowBase k d sh) (2 + k) (systemCells k d).
Proof.
  intros sh k d R0 HT. unfold rowBase. cbv zeta. rewrite !ltb_len.
  assert (R1 := rowIs_putList (fixedCells k d) sh (2 + k) [] R0). cbn [length] in R1.
  set (sh1 := putList sh (2 + k) 0 (fixedCells k d)) in *. clearbody sh1.
  rewrite putOx_list, putPhases_list, filter_occurs.
  assert (R3 := append_row _ _ _ START (map (fun i => Num (Some (dBulk d i))) (upTo NC)) _ R1 eq_refl
                           (nums_map _ (dBulk d) _)).
  assert (R4 := append_row _ _ _ (NC + START + 0) (map (fun i => Num (Some (massOf toFloat (dSol d) i))) pS) _ R3
                           ltac:(cbn [app]; rewrite app_length, map_length, nums_len, map_length, upTo_len; cbn; unfold START; lia) (mass_map _ _)).
  set (sh4 := putList (putList sh1 (2 + k) START _) (2 + k) (NC + START + 0) _) in *.
  clearbody sh4. clear R3 R1 sh1. cbn [app] in R4.
  remember ((map Some (fixedCells k d) ++ nums (map (dBulk d) (upTo NC))) ++ nums (map (total toFloat (dSol d)) pS))
    as h4 eqn:H4.
  assert (L4 : length h4 = NC + START + length pS)
    by (rewrite H4, !app_length, !nums_len, !map_length, upTo_len; cbn; unfold START; lia).
  rewrite !putPhases_list, !filter_occurs.
  set (sh5 := if negb (length pF =? 0) then _ else _).
  assert (E5 : exists s5 n, sh5 = (s5, n) /\ rowIs s5 (2 + k) (h4 ++ nums (map (total toFloat (dFrac d)) pF))).
  { unfold sh5. destruct (Nat.eqb_spec (length pF) 0) as [Z | Z]; cbn [negb].
    - exists sh4, 0. split; [reflexivity |].
      assert (Z' : pF = []) by (destruct pF; [reflexivity | discriminate]).
      rewrite Z'. cbn [map nums]. rewrite app_nil_r. exact R4.
    - eexists _, _. split; [reflexivity |].
      apply (append_row _ _ _ _ _ _ R4); [lia | apply mass_map]. }
  destruct E5 as [s5 [n5 [E5 R5]]]. rewrite E5. clear E5 sh5 R4 sh4 n5.
  remember (h4 ++ nums (map (total toFloat (dFrac d)) pF)) as h5 eqn:H5.
  assert (L5 : length h5 = NC + START + length pS + length pF)
    by (rewrite H5, app_length, L4, nums_len, map_length; lia).
  set (s6 := if lf then _ else _).
  assert (R6 : rowIs s6 (2 + k) (h5 ++ (if lf then [Some (Num (dFracLiqMass d))] else []))).
  { unfold s6. destruct lf.
    - unfold wOpt. apply append_one; [exact R5 | lia].
    - rewrite app_nil_r. exact R5. }
  clearbody s6. clear R5 s5.
  remember (h5 ++ (if lf then [Some (Num (dFracLiqMass d))] else [])) as h6 eqn:H6.
  assert (L6 : length h6 = NC + START + length pS + length pF + b2n lf)
    by (rewrite H6, app_length, L5; destruct lf; cbn; lia).
  set (s7 := match dAssimT d with Some t => _ | None => _ end).
  assert (R7 : rowIs s7 (2 + k) (h6 ++ (if hasA then [option_map (fun t => Num (Some t)) (dAssimT d)] else []))).
  { unfold s7. destruct hasA eqn:HA.
    - destruct (dAssimT d) as [t |]; cbn [option_map].
      + unfold wNum. apply append_one; [exact R6 | lia].
      + apply rowIs_blank. exact R6.
    - rewrite (HT eq_refl), app_nil_r. exact R6. }
  clearbody s7. clear R6 s6.
  remember (h6 ++ (if hasA then [option_map (fun t => Num (Some t)) (dAssimT d)] else [])) as h7 eqn:H7.
  assert (SH : systemCells k d = h7 ++ nums (map (total toFloat (dAssim d)) pA)).
  { rewrite H7, H6, H5, H4. unfold systemCells. rewrite !app_assoc. reflexivity. }
  rewrite SH.
  destruct (Nat.eqb_spec (length pA) 0) as [Z | Z]; cbn [negb].
  - assert (Z' : pA = []) by (destruct pA; [reflexivity | discriminate]).
    rewrite Z'. cbn [map nums]. rewrite app_nil_r. exact R7.
  - rewrite putPhases_list, filter_occurs. apply (append_row _ _ _ _ _ _ R7); [| apply mass_map].
    assert (HA : hasA = true)
      by (unfold hasA; destruct (Nat.eqb_spec (length pA) 0); [contradiction | reflexivity]).
    rewrite H7, HA, app_length, L6. cbn [length]. destruct lf; cbn [b2n]; lia.
Qed.

Lemma systemRow_base : forall sh k d,
  systemRow NC NP toFloat positive data sh k d
  = match dAssimLiqMass d with
    | Some m => putList (put (rowBase k d sh) (2 + k) (START + NC + length pS + length pF + b2n lf + length pA) (Num (Some m)))
                        (2 + k) (START + NC + length pS + length pF + (if lf then 2 else 1) + length pA)
                        (map (fun i => Num (Some (dAssimLiqComp d i))) (upTo NC))
    | None => rowBase k d sh
    end.
Proof.
  intros sh k d. unfold systemRow. cbv zeta. rewrite !count_eq.
  assert (E : (let (sh, _) := putPhases NP (putOx NC (putList sh (2 + k) 0 (fixedCells k d)) (2 + k) START
        (fun i => Num (Some (dBulk d i)))) (2 + k) (NC + START) 0 (occurs dSol data)
        (fun i => Num (Some (massOf toFloat (dSol d) i))) in
     let (sh0, _) := if 0 <? length pF
                 then putPhases NP sh (2 + k) (NC + START + length pS) 0 (occurs dFrac data) (fun i => Num (Some (massOf toFloat (dFrac d) i)))
                 else (sh, 0) in
     let (sh1, _) := if 0 <? length pA
                 then putPhases NP (match dAssimT d with
            | Some t => wNum (2 + k) (NC + START + length pS + length pF + b2n lf) t (if lf then wOpt (2 + k) (NC + START + length pS + length pF) (dFracLiqMass d) sh0 else sh0)
            | None => if lf then wOpt (2 + k) (NC + START + length pS + length pF) (dFracLiqMass d) sh0 else sh0 end) (2 + k) (NC + START + length pS + length pF + (if lf then 2 else 1)) 0 (occurs dAssim data)
                                (fun i => Num (Some (massOf toFloat (dAssim d) i)))
                 else (match dAssimT d with
            | Some t => wNum (2 + k) (NC + START + length pS + length pF + b2n lf) t (if lf then wOpt (2 + k) (NC + START + length pS + length pF) (dFracLiqMass d) sh0 else sh0)
            | None => if lf then wOpt (2 + k) (NC + START + length pS + length pF) (dFracLiqMass d) sh0 else sh0 end, 0) in sh1) = rowBase k d sh) by reflexivity.
  rewrite <- E. clear E.
  destruct (putPhases NP _ (2 + k) (NC + START) 0 (occurs dSol data) _) as [sa na].
  destruct (if 0 <? length pF then _ else (sa, 0)) as [sb nb].
  destruct (if 0 <? length pA then _ else _) as [sc nc'].
  destruct (dAssimLiqMass d) as [m |]; [| reflexivity].
  assert (EN : exists n, NC = S n) by (exists (pred NC); lia). destruct EN as [n EN].
  unfold wNum, upTo.
  rewrite (f_equal (seq 0) EN : seq 0 NC = seq 0 (S n)). rewrite firstLoop. reflexivity.
Qed.

Lemma put_other : forall sh r c v r' c', r' <> r -> put sh r c v r' c' = sh r' c'.
Proof. intros. unfold put. destruct (Nat.eqb_spec r' r); [contradiction | reflexivity]. Qed.

Lemma rowBase_other : forall sh k d r c, r <> 2 + k -> rowBase k d sh r c = sh r c.
Proof.
  intros sh k d r c N. unfold rowBase. cbv zeta.
  rewrite putOx_list, putPhases_list. 
  destruct (if 0 <? length pF then _ else _) as [sb nb] eqn:EB.
  assert (B : sb r c = sh r c).
  { destruct (0 <? length pF).
    - rewrite putPhases_list in EB. injection EB as EB _. subst sb.
      rewrite !putList_other by assumption. reflexivity.
    - injection EB as EB _. subst sb. rewrite !putList_other by assumption. reflexivity. }
  destruct (if 0 <? length pA then _ else _) as [sc nc'] eqn:EC.
  assert (Cc : sc r c = sb r c).
  { destruct (0 <? length pA).
    - rewrite putPhases_list in EC. injection EC as EC _. subst sc. rewrite putList_other by assumption.
      destruct (dAssimT d), lf; unfold wNum, wOpt; rewrite ?put_other by assumption; reflexivity.
    - injection EC as EC _. subst sc.
      destruct (dAssimT d), lf; unfold wNum, wOpt; rewrite ?put_other by assumption; reflexivity. }
  rewrite Cc. exact B.
Qed.

Lemma systemRow_other : forall sh k d r c, r <> 2 + k ->
  systemRow NC NP toFloat positive data sh k d r c = sh r c.
Proof.
  intros sh k d r c N. rewrite systemRow_base. destruct (dAssimLiqMass d).
  - rewrite putList_other, put_other by assumption. apply rowBase_other. exact N.
  - apply rowBase_other. exact N.
Qed.

(** Rows are written one after the other and do not touch each other. *)
Lemma putRows_spec : forall (f : Sheet -> nat -> Data -> Sheet) sh,
  (forall sh k d r c, r <> 2 + k -> f sh k d r c = sh r c) ->
  (forall r c, r < 2 \/ 2 + length data <= r -> putRows data f sh r c = sh r c)
  /\ (forall k d, nth_error data k = Some d ->
      exists sh', (forall c, sh' (2 + k) c = sh (2 + k) c)
                  /\ forall c, putRows data f sh (2 + k) c = f sh' k d (2 + k) c).
Proof.
  intros f sh HO. unfold putRows.
  assert (G : forall l sh n,
    (forall r c, r < 2 + n \/ 2 + n + length l <= r ->
       fst (fold_left (fun (st : Sheet * nat) d => let (sh, step) := st in (f sh step d, S step)) l (sh, n)) r c = sh r c)
    /\ (forall k d, nth_error l k = Some d ->
      exists sh', (forall c, sh' (2 + n + k) c = sh (2 + n + k) c)
        /\ forall c, fst (fold_left (fun (st : Sheet * nat) d => let (sh, step) := st in (f sh step d, S step)) l (sh, n)) (2 + n + k) c
                     = f sh' (n + k) d (2 + n + k) c)).
  { induction l as [| d0 l IH]; intros s n.
    - split; [reflexivity |]. intros k d E. destruct k; discriminate.
    - cbn [fold_left]. destruct (IH (f s n d0) (S n)) as [A B]. split.
      + intros r c H. cbn [length] in H. rewrite A by lia. apply HO. lia.
      + intros k d E. destruct k as [| k].
        * cbn in E. injection E as E. subst d0. exists s. split; [reflexivity |].
          intros c. rewrite A by lia. rewrite !Nat.add_0_r. reflexivity.
        * cbn in E. destruct (B k d E) as (s' & S1 & S2).
          exists s'. replace (2 + S n + k) with (2 + n + S k) in * by lia.
          replace (S n + k) with (n + S k) in S2 by lia. split; [| exact S2].
          intros c. rewrite S1. apply HO. lia. }
  destruct (G data sh 0) as [A B]. split; [exact A |]. exact B.
Qed.

(** Headings are in the first two rows only. *)
Definition low (sh : Sheet) : Prop := forall r c, 2 <= r -> sh r c = None.
Lemma low_put : forall sh row c v, row < 2 -> low sh -> low (put sh row c v).
Proof. intros sh row c v L H r c' G. rewrite put_other by lia. apply H. exact G. Qed.
Lemma low_list : forall l sh row b, row < 2 -> low sh -> low (putList sh row b l).
Proof. intros l sh row b L H r c' G. rewrite putList_other by lia. apply H. exact G. Qed.
Lemma low_fold : forall (A : Type) (f : Sheet -> A -> Sheet) l sh,
  (forall sh a, low sh -> low (f sh a)) -> low sh -> low (fold_left f l sh).
Proof. intros A f l. induction l as [| a l IH]; intros sh H L; [exact L |]. apply IH; auto. Qed.

Lemma headings_low : low (headings NC ox NP ph positive data emptySheet).
Proof.
  unfold headings. cbv zeta. rewrite !count_eq, !ltb_len.
  match goal with |- context [putOx NC ?x 1 START] => set (sh2 := x) end.
  assert (R2 : low sh2).
  { unfold sh2, wStr.
    repeat match goal with |- context [if ?b then _ else _] => destruct b end;
      repeat (apply low_put; [lia |]); try (apply low_list; [lia |]); intros r c _; reflexivity. }
  clearbody sh2. rewrite putOx_list, putPhases_list, filter_occurs.
  assert (R4 := low_list (map (fun i => Str (ph i)) pS) _ 1 (NC + START + 0) ltac:(lia)
                  (low_list (map (fun i => Str (ox i)) (upTo NC)) sh2 1 START ltac:(lia) R2)).
  set (sh4 := putList (putList sh2 1 START _) 1 (NC + START + 0) _) in *. clearbody sh4.
  destruct (if negb (length pF =? 0) then _ else _) as [s5 n5] eqn:E5.
  assert (R5 : low s5).
  { destruct (negb (length pF =? 0)).
    - rewrite putPhases_list in E5. injection E5 as E5 _. subst s5. apply low_list; [lia | exact R4].
    - injection E5 as E5 _. subst s5. exact R4. }
  destruct (if lf then _ else (s5, n5)) as [s6 n6] eqn:E6.
  assert (R6 : low s6).
  { destruct lf; injection E6 as E6 _; subst s6; [apply low_put; [lia | exact R5] | exact R5]. }
  destruct (if negb (length pA =? 0) || la then _ else (s6, n6)) as [s7 n7] eqn:E7.
  assert (R7 : low s7).
  { destruct (negb (length pA =? 0) || la); injection E7 as E7 _; subst s7;
      [apply low_put; [lia | exact R6] | exact R6]. }
  destruct (if negb (length pA =? 0) then _ else (s7, n7)) as [s8 n8] eqn:E8.
  assert (R8 : low s8).
  { destruct (negb (length pA =? 0)).
    - rewrite putPhases_list in E8. injection E8 as E8 _. subst s8. apply low_list; [lia | exact R7].
    - injection E8 as E8 _. subst s8. exact R7. }
  destruct la; [| exact R8]. apply low_fold; [| exact R8].
  intros sh i H. unfold wStr. apply low_put; [lia |]. destruct (i =? 0); [apply low_put; [lia | exact H] | exact H].
Qed.

(** ** C27 *)

(** No liquid is assimilated, and a temperature of assimilation is recorded only if something
    is: the sheet "System" is exactly the expected table, every number under its heading, nothing
    beside the table and nothing below it. *)
Theorem C27_system_partial :
  (forall d, In d data -> dAssimLiqMass d = None) ->
  (forall d, In d data -> dAssimT d <> None -> pA <> []) ->
  let sheet := systemSheet NC ox NP ph toFloat positive data in
  rowIs sheet 1 systemHead
  /\ (forall k d, nth_error data k = Some d ->
        rowIs sheet (2 + k) (systemCells k d) /\ length (systemCells k d) = length systemHead)
  /\ (forall r, 2 + length data <= r -> rowIs sheet r []).
Proof.
  intros HL HT sheet. unfold sheet, systemSheet.
  assert (LA : la = false).
  { unfold liqAssimilated. destruct (existsb (fun d => isPos positive (dAssimLiqMass d)) data) eqn:E; [| reflexivity].
    apply existsb_exists in E. destruct E as [d [Hd E]]. rewrite (HL d Hd) in E. discriminate. }
  destruct (putRows_spec (systemRow NC NP toFloat positive data) (headings NC ox NP ph positive data emptySheet)
              systemRow_other) as [A B].
  split; [| split].
  - intros c. rewrite A by lia. rewrite (headings_row c), LA, app_nil_r. reflexivity.
  - intros k d E. assert (Hd : In d data) by (apply nth_error_In with k; exact E). split.
    + destruct (B k d E) as (s' & S1 & S2).
      intros c. rewrite S2, systemRow_base, (HL d Hd).
      apply rowBase_is.
      * intros c'. rewrite S1, headings_low by lia. destruct c'; reflexivity.
      * intros HA. destruct (dAssimT d) eqn:ET; [| reflexivity]. exfalso.
        apply (HT d Hd); [rewrite ET; discriminate |].
        unfold hasA in HA. apply orb_false_iff in HA. destruct HA as [HA _].
        destruct pA; [reflexivity | discriminate].
    + unfold systemCells, systemHead. rewrite !app_length, !nums_len, !strs_len, !map_length, !upTo_len.
      destruct lf, hasA; reflexivity.
  - intros r Hr c. rewrite A by lia. rewrite headings_low by lia. destruct c; reflexivity.
Qed.
(** the same as a property of its own (C104) *)
Theorem C104_system_sheet :
  (forall d, In d data -> dAssimLiqMass d = None) ->
  (forall d, In d data -> dAssimT d <> None -> pA <> []) ->
  let sheet := systemSheet NC ox NP ph toFloat positive data in
  rowIs sheet 1 systemHead
  /\ (forall k d, nth_error data k = Some d ->
        rowIs sheet (2 + k) (systemCells k d) /\ length (systemCells k d) = length systemHead)
  /\ (forall r, 2 + length data <= r -> rowIs sheet r []).
Proof. exact C27_system_partial. Qed.

(** With a liquid assimilant its composition is under the right headings, but its mass is written
    one column too far left: under the heading of the last assimilated phase, or under
    "assim T (C)" if there is none, in place of the number that belongs there. *)
Theorem C27_refuted_liquid_assimilant : forall k d m,
  nth_error data k = Some d -> dAssimLiqMass d = Some m -> la = true ->
  let sheet := systemSheet NC ox NP ph toFloat positive data in
  let col := START + NC + length pS + length pF + b2n lf + length pA in
  sheet (2 + k) col = Some (Num (Some m))
  /\ sheet 1 col = Some (Str (last ("assim T (C)" :: map ph pA) ""))
  /\ (forall i, i < NC -> sheet 1 (S col + i) = Some (Str (ox i))
                          /\ sheet (2 + k) (S col + i) = Some (Num (Some (dAssimLiqComp d i)))).
Proof.
  intros k d m E EM LA sheet col. unfold sheet, systemSheet.
  destruct (putRows_spec (systemRow NC NP toFloat positive data) (headings NC ox NP ph positive data emptySheet)
              systemRow_other) as [A B].
  destruct (B k d E) as (s' & S1 & S2).
  assert (HA : hasA = true) by (unfold hasA; rewrite LA; apply orb_true_r).
  assert (LH : length systemHead = S col).
  { unfold systemHead. rewrite HA, !app_length, !strs_len, !map_length, !upTo_len.
    unfold col, START. destruct lf; cbn [strs map length b2n fixedHeadings]; lia. }
  assert (CB : START + NC + length pS + length pF + (if lf then 2 else 1) + length pA = S col)
    by (unfold col; destruct lf; cbn [b2n]; lia).
  assert (NB : forall (l : list Cell) sh r b c, c < b -> putList sh r b l r c = sh r c).
  { induction l as [| v l IH]; intros sh r b c L; [reflexivity |].
    rewrite putList_cons, IH by lia. unfold put. destruct (Nat.eqb_spec c b); [lia |].
    rewrite andb_false_r. reflexivity. }
  assert (NI : forall (l : list Cell) sh r b i, i < length l -> putList sh r b l r (b + i) = nth_error l i).
  { induction l as [| v l IH]; intros sh r b i L; [cbn in L; lia |].
    rewrite putList_cons. destruct i as [| i].
    - rewrite NB by lia. unfold put. rewrite Nat.add_0_r, !Nat.eqb_refl. reflexivity.
    - replace (b + S i) with (S b + i) by lia. rewrite IH by (cbn in L; lia). reflexivity. }
  split; [| split].
  - rewrite S2, systemRow_base, EM, CB. rewrite NB by lia. fold col. unfold put.
    rewrite !Nat.eqb_refl. reflexivity.
  - rewrite A by lia. rewrite (headings_row col), LA.
    rewrite app_nth1 by lia.
    assert (SP : exists l, systemHead = l ++ strs ("assim T (C)" :: map ph pA)).
    { unfold systemHead. rewrite HA. exists (strs fixedHeadings ++ strs (map ox (upTo NC)) ++ strs (map ph pS)
        ++ strs (map ph pF) ++ (if lf then strs ["liquid (frac)"] else [])). rewrite <- !app_assoc. reflexivity. }
    destruct SP as [l SP]. rewrite SP in *. rewrite app_length, strs_len in LH.
    remember ("assim T (C)" :: map ph pA) as q eqn:EQ.
    assert (QN : q <> []) by (rewrite EQ; discriminate).
    destruct (exists_last QN) as [q0 [x EX]]. rewrite EX in *.
    rewrite app_length in LH. cbn [length] in LH. rewrite last_last.
    unfold strs. rewrite map_app, app_assoc, app_nth2.
    + rewrite app_length, map_length.
      replace (col - (length l + length q0)) with 0 by lia. reflexivity.
    + rewrite app_length, map_length. lia.
  - intros i Hi. split.
    + rewrite A by lia. rewrite (headings_row (S col + i)), LA.
      rewrite app_nth2 by lia. rewrite LH. replace (S col + i - S col) with i by lia.
      unfold strs. rewrite (nth_indep _ None (Some (Str (ox 0)))) by (rewrite !map_length, upTo_len; exact Hi).
      rewrite !map_nth with (d := 0) || idtac.
      change (Some (Str (ox 0))) with ((fun s => Some (Str s)) (ox 0)). rewrite map_nth.
      rewrite map_nth. unfold upTo. rewrite seq_nth by assumption. reflexivity.
    + rewrite S2, systemRow_base, EM, CB. rewrite NI by (rewrite map_length, upTo_len; exact Hi).
      unfold upTo. rewrite nth_error_map.
      replace (nth_error (seq 0 NC) i) with (Some i); [reflexivity |].
      symmetry. rewrite (nth_error_nth' _ 0) by (rewrite seq_length; exact Hi).
      rewrite seq_nth by assumption. reflexivity.
Qed.

(** ** The other two sheets *)

(** A whole sheet: two heading rows, one row for every step, nothing below. *)
Definition sheetIs (sh : Sheet) (h0 h1 : list (option Cell)) (ds : nat -> Data -> list (option Cell)) : Prop :=
  rowIs sh 0 h0 /\ rowIs sh 1 h1
  /\ (forall k d, nth_error data k = Some d -> rowIs sh (2 + k) (ds k d))
  /\ (forall r, 2 + length data <= r -> rowIs sh r []).

Definition pad (n : nat) (l : list (option Cell)) : list (option Cell) := l ++ blanks (n - length l).

Lemma pad_len : forall n l, length l <= n -> length (pad n l) = n.
Proof. intros n l H. unfold pad, blanks. rewrite app_length, repeat_length. lia. Qed.
Lemma rowIs_pad : forall n sh r l, rowIs sh r l -> rowIs sh r (pad n l).
Proof. intros. apply rowIs_blanks. assumption. Qed.

Lemma sheetIs_rows : forall f sh h0 h1 ds ds', sheetIs sh h0 h1 ds ->
  (forall sh k d r c, r <> 2 + k -> f sh k d r c = sh r c) ->
  (forall sh k d, nth_error data k = Some d -> rowIs sh (2 + k) (ds k d) -> rowIs (f sh k d) (2 + k) (ds' k d)) ->
  sheetIs (putRows data f sh) h0 h1 ds'.
Proof.
  intros f sh h0 h1 ds ds' (A0 & A1 & AD & AB) HO HF.
  destruct (putRows_spec f sh HO) as [P Q].
  split; [| split; [| split]].
  - intros c. rewrite P by lia. apply A0.
  - intros c. rewrite P by lia. apply A1.
  - intros k d E. destruct (Q k d E) as (s' & S1 & S2). intros c. rewrite S2.
    apply HF; [exact E |]. intros c'. rewrite S1. apply (AD k d E).
  - intros r Hr c. rewrite P by lia. apply (AB r Hr).
Qed.

Lemma sheetIs_heads : forall sh sh' h0 h1 h0' h1' ds, sheetIs sh h0 h1 ds ->
  rowIs sh' 0 h0' -> rowIs sh' 1 h1' -> (forall r c, 2 <= r -> sh' r c = sh r c) ->
  sheetIs sh' h0' h1' ds.
Proof.
  intros sh sh' h0 h1 h0' h1' ds (A0 & A1 & AD & AB) H0 H1 HR.
  split; [exact H0 | split; [exact H1 | split]].
  - intros k d E c. rewrite HR by lia. apply (AD k d E).
  - intros r Hr c. rewrite HR by lia. apply (AB r Hr).
Qed.

Lemma sheetIs_pad : forall n m sh h0 h1 ds, sheetIs sh h0 h1 ds ->
  sheetIs sh (pad m h0) (pad n h1) (fun k d => pad n (ds k d)).
Proof.
  intros n m sh h0 h1 ds (A0 & A1 & AD & AB).
  split; [| split; [| split]]; try (intros; apply rowIs_pad; auto). exact AB.
Qed.

Lemma sheetIs_ext : forall sh h0 h1 ds ds', sheetIs sh h0 h1 ds -> (forall k d, ds k d = ds' k d) ->
  sheetIs sh h0 h1 ds'.
Proof.
  intros sh h0 h1 ds ds' (A0 & A1 & AD & AB) E. split; [exact A0 | split; [exact A1 | split; [| exact AB]]].
  intros k d H. rewrite <- E. apply AD. exact H.
Qed.

(** *** "Liquid" *)
Definition liqHead : list (option Cell) := strs (["Step"; "Mass"] ++ map ox (upTo NC)).

Lemma liquidHeadings_is : forall sh title base h0 h1 ds, sheetIs sh h0 h1 ds ->
  length h0 = base -> length h1 = base ->
  sheetIs (liquidHeadings NC ox sh title base) (h0 ++ strs [title]) (h1 ++ liqHead) ds.
Proof.
  intros sh title base h0 h1 ds H L0 L1. eapply sheetIs_heads; [exact H | | |];
    unfold liquidHeadings, wStr; cbv zeta; rewrite putOx_list.
  - apply rowIs_putList_other; [| discriminate]. do 2 (apply rowIs_other; [| discriminate]).
    apply append_one; [apply H | lia].
  - assert (R := append_one _ 1 h1 base (Str "Step")
                  (rowIs_other sh 1 h1 0 base (Str title) (proj1 (proj2 H)) ltac:(discriminate)) ltac:(lia)).
    assert (R2 := append_one _ 1 _ (base + 1) (Str "Mass") R ltac:(rewrite app_length; cbn; lia)).
    assert (R3 := append_row _ _ _ (base + 2) (map (fun i => Str (ox i)) (upTo NC)) _ R2
                   ltac:(rewrite !app_length; cbn; lia) (strs_map _ ox _)).
    unfold liqHead. rewrite <- !app_assoc in R3. exact R3.
  - intros r c Hr. rewrite putList_other, !put_other by lia. reflexivity.
Qed.

Definition mainCells (k : nat) (d : Data) : list (option Cell) :=
  nums [INR k; orZero (dLiqMass d)]
  ++ match dLiqMass d with Some _ => nums (map (dLiqComp d) (upTo NC)) | None => blanks NC end.
Definition sideCells (mass : Data -> option R) (comp : Data -> nat -> R) (k : nat) (d : Data) : list (option Cell) :=
  nums [INR k]
  ++ match mass d with Some m => nums (m :: map (comp d) (upTo NC)) | None => blanks (S NC) end.

Lemma mainCells_len : forall k d, length (mainCells k d) = NC + 2.
Proof.
  intros k d. unfold mainCells, blanks. rewrite app_length. destruct (dLiqMass d);
    rewrite ?nums_len, ?map_length, ?upTo_len, ?repeat_length; cbn [length]; lia.
Qed.
Lemma sideCells_len : forall mass comp k d, length (sideCells mass comp k d) = NC + 2.
Proof.
  intros mass comp k d. unfold sideCells, blanks. rewrite app_length. destruct (mass d);
    rewrite ?nums_len, ?repeat_length; cbn [length]; rewrite ?map_length, ?upTo_len; lia.
Qed.

Lemma liquidRow_own : forall sh k d, rowIs sh (2 + k) [] -> rowIs (liquidRow NC sh k d) (2 + k) (mainCells k d).
Proof.
  intros sh k d H. unfold liquidRow. cbv zeta. unfold wNum.
  assert (R1 := append_one sh (2 + k) [] 0 (Num (Some (INR k))) H eq_refl).
  assert (R2 := append_one _ (2 + k) _ 1 (Num (Some (orZero (dLiqMass d)))) R1 eq_refl).
  unfold mainCells. destruct (dLiqMass d).
  - rewrite putOx_list. apply (append_row _ _ _ 2 _ _ R2 eq_refl (nums_map _ (dLiqComp d) _)).
  - apply (rowIs_blanks NC _ _ _ R2).
Qed.
Lemma liquidRow_other : forall sh k d r c, r <> 2 + k -> liquidRow NC sh k d r c = sh r c.
Proof.
  intros sh k d r c N. unfold liquidRow. cbv zeta. unfold wNum.
  destruct (dLiqMass d); rewrite ?putOx_list, ?putList_other, ?put_other by assumption; reflexivity.
Qed.

Lemma sideRow_own : forall base mass comp sh k d l, rowIs sh (2 + k) l -> length l = base ->
  rowIs (sideRow NC base mass comp sh k d) (2 + k) (l ++ sideCells mass comp k d).
Proof.
  intros base mass comp sh k d l H L. unfold sideRow. cbv zeta. unfold wNum.
  assert (R1 := append_one sh (2 + k) l base (Num (Some (INR k))) H ltac:(lia)).
  unfold sideCells. rewrite app_assoc.
  change (nums [INR k]) with [Some (Num (Some (INR k)))].
  destruct (mass d) as [m |]; [| apply (rowIs_blanks (S NC) _ _ _ R1)].
  assert (EN : exists n, NC = S n) by (exists (pred NC); lia). destruct EN as [n EN].
  assert (EF : forall s0, fold_left (fun sh0 i => put (if i =? 0 then put sh0 (2 + k) (base + 1) (Num (Some m)) else sh0)
                              (2 + k) (base + i + 2) (Num (Some (comp d i)))) (seq 0 NC) s0
             = putList (put s0 (2 + k) (base + 1) (Num (Some m))) (2 + k) (base + 2)
                 (map (fun i => Num (Some (comp d i))) (upTo NC))).
  { intros s0. unfold upTo. rewrite (f_equal (seq 0) EN : seq 0 NC = seq 0 (S n)).
    rewrite <- (firstLoop n s0 (2 + k) (base + 1) (Num (Some m)) (base + 2) (fun i => Num (Some (comp d i)))).
    generalize (seq 0 (S n)). intros q. revert s0.
    induction q as [| i q IH]; intros s0; [reflexivity |]. cbn [fold_left]. cbv zeta.
    rewrite IH. replace (base + i + 2) with (base + 2 + i) by lia. reflexivity. }
  rewrite EF.
  assert (R2 := append_one _ (2 + k) _ (base + 1) (Num (Some m)) R1 ltac:(rewrite app_length; cbn; lia)).
  assert (R3 := append_row _ _ _ (base + 2) (map (fun i => Num (Some (comp d i))) (upTo NC)) _ R2
                 ltac:(rewrite !app_length; cbn; lia) (nums_map _ (comp d) _)).
  rewrite <- !app_assoc in R3. rewrite <- app_assoc. exact R3.
Qed.
Lemma sideRow_other : forall base mass comp sh k d r c, r <> 2 + k ->
  sideRow NC base mass comp sh k d r c = sh r c.
Proof.
  intros base mass comp sh k d r c N. unfold sideRow. cbv zeta. unfold wNum.
  destruct (mass d) as [m |]; [| rewrite put_other by assumption; reflexivity].
  assert (G : forall q s, fold_left (fun sh0 i => put (if i =? 0 then put sh0 (2 + k) (base + 1) (Num (Some m)) else sh0)
                              (2 + k) (base + i + 2) (Num (Some (comp d i)))) q s r c = s r c).
  { induction q as [| i q IH]; intros s; [reflexivity |]. cbn [fold_left]. rewrite IH.
    rewrite put_other by assumption. destruct (i =? 0); rewrite ?put_other by assumption; reflexivity. }
  rewrite G, put_other by assumption. reflexivity.
Qed.

(** Three tables side by side, one blank column between them. *)
Definition beside (b : bool) (w : nat) (l l2 : list (option Cell)) : list (option Cell) :=
  if b then pad w l ++ l2 else l.

Theorem C68_liquid :
  let w1 := NC + 3 in
  let w2 := if lf then (NC + 3) + (NC + 3) else NC + 3 in
  sheetIs (liquidSheet NC ox positive data)
    (beside la w2 (beside lf w1 (strs [liqTitle]) (strs [aggTitle])) (strs [asTitle]))
    (beside la w2 (beside lf w1 liqHead liqHead) liqHead)
    (fun k d => beside la w2 (beside lf w1 (mainCells k d) (sideCells dFracLiqMass dFracLiqComp k d))
                             (sideCells dAssimLiqMass dAssimLiqComp k d)).
Proof.
  intros w1 w2. unfold liquidSheet. cbv zeta.
  assert (LL : length liqHead = NC + 2)
    by (unfold liqHead; rewrite strs_len, app_length, map_length, upTo_len; cbn; lia).
  assert (S0 : sheetIs emptySheet [] [] (fun _ _ => []))
    by (split; [| split; [| split]]; intros; apply rowIs_empty).
  assert (S1 := liquidHeadings_is emptySheet liqTitle 0 [] [] _ S0 eq_refl eq_refl). cbn [app] in S1.
  assert (S2 := sheetIs_rows (liquidRow NC) _ _ _ _ mainCells S1 liquidRow_other
                  (fun sh k d _ H => liquidRow_own sh k d H)).
  set (sh2 := putRows data (liquidRow NC) (liquidHeadings NC ox emptySheet liqTitle 0)) in *.
  clearbody sh2. clear S1 S0.
  set (s3 := if lf then _ else _).
  assert (S3 : exists sh3, s3 = (sh3, w2) /\
    sheetIs sh3 (beside lf w1 (strs [liqTitle]) (strs [aggTitle])) (beside lf w1 liqHead liqHead)
      (fun k d => beside lf w1 (mainCells k d) (sideCells dFracLiqMass dFracLiqComp k d))).
  { unfold s3, w2, beside. destruct lf.
    - eexists. split; [f_equal; lia |].
      assert (P := sheetIs_pad w1 w1 _ _ _ _ S2).
      assert (Q := liquidHeadings_is sh2 aggTitle (NC + 3) _ _ _ P
                 ltac:(apply pad_len; cbn; lia) ltac:(apply pad_len; unfold w1; lia)).
      apply (sheetIs_rows _ _ _ _ _ _ Q (sideRow_other _ _ _)).
      intros sh k d _ H. apply sideRow_own; [exact H |]. apply pad_len.
      rewrite mainCells_len. unfold w1; lia.
    - exists sh2. split; [reflexivity |]. exact S2. }
  destruct S3 as [sh3 [E3 S3]]. rewrite E3. clear E3 s3 S2 sh2.
  destruct la; unfold beside at 1 3 5; [| exact S3].
  assert (P := sheetIs_pad w2 w2 _ _ _ _ S3).
  assert (BL : forall l l2 : list (option Cell), length l <= NC + 2 -> length l2 <= NC + 2 ->
               length (beside lf w1 l l2) <= w2).
  { intros l l2 A B. unfold beside, w2. destruct lf; [| lia].
    rewrite app_length, pad_len by (unfold w1; lia). unfold w1. lia. }
  assert (Q := liquidHeadings_is sh3 asTitle w2 _ _ _ P
                 ltac:(apply pad_len; apply BL; cbn; lia) ltac:(apply pad_len; apply BL; lia)).
  apply (sheetIs_rows _ _ _ _ _ _ Q (sideRow_other _ _ _)).
  intros sh k d _ H. apply sideRow_own; [exact H |]. apply pad_len. apply BL.
  - rewrite mainCells_len. lia.
  - rewrite sideCells_len. lia.
Qed.

(** *** "Phases" *)
Definition phHead : list (option Cell) := strs ["Step"; "Label"; "Mass"; "Formula"].
Definition triple (p : Phase) : list (option Cell) :=
  [Some (Str (pLabel p)); Some (Num (Some (pMass p))); Some (Str (pFormula p))].
Definition phCells (f : Data -> list Phase) (k : nat) (d : Data) : list (option Cell) :=
  nums [INR k] ++ flat_map triple (f d).

Lemma phCells_len : forall f k d, length (phCells f k d) = 1 + 3 * length (f d).
Proof.
  intros f k d. unfold phCells. rewrite app_length. cbn [nums map length].
  induction (f d) as [| p l IH]; [reflexivity |]. cbn [flat_map triple app length] in *. lia.
Qed.

Lemma phasesHeadings_is : forall sh title base h0 h1 ds, sheetIs sh h0 h1 ds ->
  length h0 = base -> length h1 = base ->
  sheetIs (phasesHeadings sh title base) (h0 ++ strs [title]) (h1 ++ phHead) ds.
Proof.
  intros sh title base h0 h1 ds H L0 L1. eapply sheetIs_heads; [exact H | | |];
    unfold phasesHeadings, wStr; cbv zeta.
  - do 4 (apply rowIs_other; [| discriminate]). apply append_one; [apply H | lia].
  - assert (R := append_one _ 1 h1 base (Str "Step")
                  (rowIs_other sh 1 h1 0 base (Str title) (proj1 (proj2 H)) ltac:(discriminate)) ltac:(lia)).
    assert (R2 := append_one _ 1 _ (base + 1) (Str "Label") R ltac:(rewrite app_length; cbn; lia)).
    assert (R3 := append_one _ 1 _ (base + 2) (Str "Mass") R2 ltac:(rewrite !app_length; cbn; lia)).
    assert (R4 := append_one _ 1 _ (base + 3) (Str "Formula") R3 ltac:(rewrite !app_length; cbn; lia)).
    rewrite <- !app_assoc in R4. exact R4.
  - intros r c Hr. rewrite !put_other by lia. reflexivity.
Qed.

Lemma phaseRow_own : forall base f sh k d l, rowIs sh (2 + k) l -> length l = base ->
  rowIs (phaseRow base f sh k d) (2 + k) (l ++ phCells f k d).
Proof.
  intros base f sh k d l H L. unfold phaseRow. cbv zeta. unfold wNum, wStr.
  assert (R1 := append_one sh (2 + k) l base (Num (Some (INR k))) H ltac:(lia)).
  unfold phCells. rewrite app_assoc. change (nums [INR k]) with [Some (Num (Some (INR k)))].
  set (l1 := l ++ [Some (Num (Some (INR k)))]) in *.
  assert (L1 : base + 1 = length l1) by (unfold l1; rewrite app_length; cbn; lia).
  rewrite L1. clearbody l1. clear L1 H L l.
  set (s0 := put sh (2 + k) base (Num (Some (INR k)))) in *. clearbody s0. revert s0 l1 R1.
  induction (f d) as [| p q IH]; intros s0 l1 R1.
  - cbn. rewrite app_nil_r. exact R1.
  - cbn [fold_left flat_map]. cbv zeta.
    assert (A := append_one _ _ _ (length l1) (Str (pLabel p)) R1 eq_refl).
    assert (B := append_one _ _ _ (S (length l1)) (Num (Some (pMass p))) A ltac:(rewrite app_length; cbn; lia)).
    assert (C := append_one _ _ _ (S (S (length l1))) (Str (pFormula p)) B ltac:(rewrite !app_length; cbn; lia)).
    specialize (IH _ _ C).
    replace (length (((l1 ++ [Some (Str (pLabel p))]) ++ [Some (Num (Some (pMass p)))]) ++ [Some (Str (pFormula p))]))
      with (S (S (S (length l1)))) in IH by (rewrite !app_length; cbn; lia).
    rewrite <- !app_assoc in IH. exact IH.
Qed.

Lemma phaseRow_other : forall base f sh k d r c, r <> 2 + k -> phaseRow base f sh k d r c = sh r c.
Proof.
  intros base f sh k d r c N. unfold phaseRow. cbv zeta. unfold wNum, wStr.
  rewrite <- (put_other sh (2 + k) base (Num (Some (INR k))) r c N).
  generalize (put sh (2 + k) base (Num (Some (INR k)))). generalize (base + 1).
  induction (f d) as [| p q IH]; intros b s; [reflexivity |].
  cbn [fold_left]. rewrite IH, !put_other by assumption. reflexivity.
Qed.

Lemma phasesWidth_ge : 4 <= phasesWidth data /\ forall d, In d data -> 1 + 3 * length (dSol d) < phasesWidth data.
Proof.
  unfold phasesWidth.
  assert (G : forall l m, m <= fold_left (fun m d => Nat.max m (1 + 3 * length (dSol d))) l m
    /\ forall d, In d l -> 1 + 3 * length (dSol d) <= fold_left (fun m d => Nat.max m (1 + 3 * length (dSol d))) l m).
  { induction l as [| d0 l IH]; intros m.
    - cbn. split; [lia | contradiction].
    - cbn [fold_left]. destruct (IH (Nat.max m (1 + 3 * length (dSol d0)))) as [A B].
      split; [lia |]. intros d [E | E]; [subst d0; lia | apply B; exact E]. }
  destruct (G data 3) as [A B]. split; [lia |]. intros d H. specialize (B d H). lia.
Qed.

(** The sheet "Phases": three tables side by side, with the second one assumed no wider than the
    first: the third starts at twice the width of the first. *)
Theorem C69_phases_partial :
  let w := phasesWidth data in
  let hF := negb (length pF =? 0) in
  let hA := negb (length pA =? 0) in
  (hF = true -> hA = true -> forall d, In d data -> 1 + 3 * length (dFrac d) <= w) ->
  let w2 := if hF then w + w else w in
  sheetIs (phasesSheet NP data)
    (beside hA w2 (beside hF w (strs [phTitle]) (strs [cuTitle])) (strs [apTitle]))
    (beside hA w2 (beside hF w phHead phHead) phHead)
    (fun k d => beside hA w2 (beside hF w (phCells dSol k d) (phCells dFrac k d)) (phCells dAssim k d)).
Proof.
  intros w hF hA HW w2. unfold phasesSheet. cbv zeta. rewrite !count_eq, !ltb_len.
  fold hF hA. destruct phasesWidth_ge as [W4 WS]. fold w in W4, WS. fold w.
  assert (S0 : sheetIs emptySheet [] [] (fun _ _ => []))
    by (split; [| split; [| split]]; intros; apply rowIs_empty).
  assert (S1 := phasesHeadings_is emptySheet phTitle 0 [] [] _ S0 eq_refl eq_refl). cbn [app] in S1.
  assert (S2 := sheetIs_rows (phaseRow 0 dSol) _ _ _ _ (phCells dSol) S1 (phaseRow_other _ _)
                  (fun sh k d _ H => phaseRow_own 0 dSol sh k d [] H eq_refl)).
  set (sh2 := putRows data (phaseRow 0 dSol) _) in *. clearbody sh2. clear S1 S0.
  assert (LH : length phHead = 4) by reflexivity.
  set (s3 := if hF then _ else _).
  assert (S3 : exists sh3, s3 = (sh3, w2) /\
    sheetIs sh3 (beside hF w (strs [phTitle]) (strs [cuTitle])) (beside hF w phHead phHead)
      (fun k d => beside hF w (phCells dSol k d) (phCells dFrac k d))).
  { unfold s3, w2, beside. destruct hF.
    - eexists. split; [f_equal; lia |].
      assert (P := sheetIs_pad w w _ _ _ _ S2).
      assert (Q := phasesHeadings_is sh2 cuTitle w _ _ _ P
                 ltac:(apply pad_len; cbn; lia) ltac:(apply pad_len; lia)).
      apply (sheetIs_rows _ _ _ _ _ _ Q (phaseRow_other _ _)).
      intros sh k d E H. apply phaseRow_own; [exact H |]. apply pad_len.
      rewrite phCells_len. specialize (WS d (nth_error_In _ _ E)). lia.
    - exists sh2. split; [reflexivity |]. exact S2. }
  destruct S3 as [sh3 [E3 S3]]. rewrite E3. clear E3 s3 S2 sh2.
  destruct hA; unfold beside at 1 3 5; [| exact S3].
  assert (P := sheetIs_pad w2 w2 _ _ _ _ S3).
  assert (BL : forall l l2 : list (option Cell), length l <= w -> (hF = true -> length l2 <= w) ->
               length (beside hF w l l2) <= w2).
  { intros l l2 A B. unfold beside, w2. destruct hF; [| lia].
    rewrite app_length, pad_len by lia. specialize (B eq_refl). lia. }
  assert (Q := phasesHeadings_is sh3 apTitle w2 _ _ _ P
                 ltac:(apply pad_len; apply BL; cbn; lia) ltac:(apply pad_len; apply BL; lia)).
  apply (sheetIs_rows _ _ _ _ _ _ Q (phaseRow_other _ _)).
  intros sh k d E H. apply phaseRow_own; [exact H |]. apply pad_len. apply BL.
  - rewrite phCells_len. specialize (WS d (nth_error_In _ _ E)). lia.
  - intros HF. rewrite phCells_len. apply HW; [exact HF | reflexivity | apply (nth_error_In _ _ E)].
Qed.
(** the same as a property of its own (C115) *)
Theorem C115_phases_sheet :
  let w := phasesWidth data in
  let hF := negb (length pF =? 0) in
  let hA := negb (length pA =? 0) in
  (hF = true -> hA = true -> forall d, In d data -> 1 + 3 * length (dFrac d) <= w) ->
  let w2 := if hF then w + w else w in
  sheetIs (phasesSheet NP data)
    (beside hA w2 (beside hF w (strs [phTitle]) (strs [cuTitle])) (strs [apTitle]))
    (beside hA w2 (beside hF w phHead phHead) phHead)
    (fun k d => beside hA w2 (beside hF w (phCells dSol k d) (phCells dFrac k d)) (phCells dAssim k d)).
Proof. exact C69_phases_partial. Qed.

End OneFile.
End Sheets.

(** ** A concrete calculation

    One step with one solid, three fractionated phases and one assimilated phase. *)

Definition exPh (i : nat) (s : string) (m : R) : Phase := MkPhase i s "f" m.
Definition exData (liq : option R) : Data :=
  MkData false false false 1 2 3 4 5 6 7 8 9 None 10 (Some 11%R) (fun _ => 12%R) (Some 13%R)
         (Some 14%R) (Some 15%R) (fun _ => 16%R)
         [exPh 0 "ol" 1] [exPh 1 "cpx" 2; exPh 2 "pl" 3; exPh 3 "sp" 4] [exPh 2 "pl" 5]
         None (fun _ => 0%R) (Some 17%R) liq (fun _ => 18%R).

Definition exOx (i : nat) : string := "ox".
Definition exName (i : nat) : string := nth i ["ol"; "cpx"; "pl"; "sp"] "".

(** C69 is false: the second fractionated phase is written with its mass in column 10 of the
    Phases sheet, and the assimilant table then puts its step number there: the mass 3 of the
    second phase appears nowhere in the sheet. *)
Theorem C69_refuted_overlap :
  let sh := phasesSheet 4 [exData None] in
  sh 1 10 = Some (Str "Step") /\ sh 2 9 = Some (Str "pl") /\ sh 2 10 = Some (Num (Some (INR 0)))
  /\ sh 2 11 = Some (Str "pl") /\ sh 2 12 = Some (Num (Some 5%R))
  /\ forall c, sh 2 c <> Some (Num (Some 3%R)).
Proof.
  cbn zeta. split; [reflexivity |]. split; [reflexivity |]. split; [reflexivity |].
  split; [reflexivity |]. split; [reflexivity |].
  assert (N1 : 0%R <> 3%R) by (apply Rlt_not_eq; apply (IZR_lt 0 3); reflexivity).
  assert (N2 : 1%R <> 3%R) by (apply Rlt_not_eq; apply (IZR_lt 1 3); reflexivity).
  assert (N3 : 2%R <> 3%R) by (apply Rlt_not_eq; apply (IZR_lt 2 3); reflexivity).
  assert (N4 : 4%R <> 3%R) by (apply Rgt_not_eq; apply (IZR_lt 3 4); reflexivity).
  assert (N5 : 5%R <> 3%R) by (apply Rgt_not_eq; apply (IZR_lt 3 5); reflexivity).
  assert (E : forall c, phasesSheet 4 [exData None] 2 c = nth c
    ([Some (Num (Some (INR 0))); Some (Str "ol"); Some (Num (Some 1%R)); Some (Str "f"); None;
      Some (Num (Some (INR 0))); Some (Str "cpx"); Some (Num (Some 2%R)); Some (Str "f");
      Some (Str "pl"); Some (Num (Some (INR 0))); Some (Str "pl"); Some (Num (Some 5%R));
      Some (Str "f"); Some (Str "f")]) None).
  { intros c. do 15 (destruct c as [| c]; [reflexivity |]). destruct c; reflexivity. }
  intros c. rewrite E.
  do 15 (destruct c as [| c]; [cbn [nth INR]; intros Q; first [discriminate Q | injection Q; auto] |]).
  cbn [nth]. destruct c; discriminate.
Qed.

(** The hypotheses of C27_system_partial, C27_refuted_liquid_assimilant and C69_phases_partial
    are met by calculations of this kind. *)
Theorem C27_case :
  let yes := fun _ : R => true in
  (forall d, In d [exData None] -> dAssimLiqMass d = None)
  /\ present 4 dSol [exData None] = [0] /\ present 4 dFrac [exData None] = [1; 2; 3]
  /\ present 4 dAssim [exData None] = [2]
  /\ systemSheet 2 exOx 4 exName (fun x => x) yes [exData None] 1 24 = Some (Str "pl")
  /\ nth_error [exData (Some 19%R)] 0 = Some (exData (Some 19%R))
  /\ liqAssimilated yes [exData (Some 19%R)] = true
  /\ systemSheet 2 exOx 4 exName (fun x => x) yes [exData (Some 19%R)] 1 24 = Some (Str "pl")
  /\ systemSheet 2 exOx 4 exName (fun x => x) yes [exData (Some 19%R)] 2 24 = Some (Num (Some 19%R)).
Proof.
  cbn zeta. split; [intros d [E | []]; rewrite <- E; reflexivity |].
  repeat (split; [reflexivity |]). reflexivity.
Qed.
