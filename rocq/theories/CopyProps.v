(** C37: a copy of the state of the system. *)
From Coq Require Import Reals Arith Bool List Lia Lra.
From Verif Require Import CopyModel.
Import ListNotations.
Local Open Scope nat_scope.

(** ** The specification *)
Definition ofamVal (f : ofam) (k j : nat) : R := match ocol f k with Some a => val a j | None => 0%R end.
Definition arrEq (n : nat) (a b : arr) : Prop := forall j, j < n -> val a j = val b j.
Definition intsEq (n : nat) (a b : iarr) : Prop := forall j, j < n -> ival a j = ival b j.
(** two states have the same content *)
Record sameContent (t : tables) (a b : state) : Prop := Same {
  same_sc : forall k, sc a k = sc b k;
  same_bulk : arrEq (nc t) (bulk a) (bulk b);
  same_dsp : arrEq (nc t) (dspBulk a) (dspBulk b);
  same_nLiq : nLiq a = nLiq b;
  same_liq : forall i, i < Nat.max 1 (nLiq a) -> arrEq (nlc t) (col (liq a) i) (col (liq b) i);
  same_liqD : forall i, i < Nat.max 1 (nLiq a) -> arrEq (nlc t) (col (liqD a) i) (col (liqD b) i);
  same_nSol : intsEq (npc t) (nSol a) (nSol b);
  same_inc : intsEq (S (npc t)) (inc a) (inc b);
  same_cyl : intsEq (npc t) (cyl a) (cyl b);
  (* every phase that is present: its amounts, and those of its components *)
  same_sol : forall i j, i < npc t -> j < ival (nSol a) i ->
    val (col (sol a) i) j = val (col (sol b) i) j /\ val (col (solD a) i) j = val (col (solD b) i) j /\
    (1 < na t i -> forall k, k < na t i ->
       val (col (sol a) (i + 1 + k)) j = val (col (sol b) (i + 1 + k)) j /\
       val (col (solD a) (i + 1 + k)) j = val (col (solD b) (i + 1 + k)) j);
  same_fSol : fSol a = fSol b; same_fFlu : fFlu a = fFlu b; same_fLiq : fLiq a = fLiq b;
  same_frac : fSol a || fFlu a = true -> forall ca fa, nFrac a = Some ca -> frac a = Some fa ->
    exists cb fb, nFrac b = Some cb /\ frac b = Some fb /\ intsEq (npc t) ca cb /\
      forall i j, i < npc t -> j < ival ca i -> ofamVal fa i j = ofamVal fb i j /\
        (1 < na t i -> forall k, k < na t i -> ofamVal fa (i + 1 + k) j = ofamVal fb (i + 1 + k) j);
  same_fracL : fLiq a = true -> forall x, fracL a = Some x -> exists y, fracL b = Some y /\ arrEq (nlc t) x y;
  same_assim : assim a = assim b;
  same_dspAs : assim a = true -> forall ca fa, nDspAs a = Some ca -> dspAs a = Some fa ->
    exists cb fb, nDspAs b = Some cb /\ dspAs b = Some fb /\ intsEq (npc t + nc t) ca cb /\
      forall i j, i < npc t + nc t -> j < ival ca i -> ofamVal fa i j = ofamVal fb i j;
  same_asC : assim a = true -> forall ca fa, nAs a = Some ca -> asC a = Some fa ->
    exists cb fb, nAs b = Some cb /\ asC b = Some fb /\ intsEq (npc t + nlc t) ca cb /\
      forall i j, i < npc t + nlc t -> j < ival ca i -> ofamVal fa i j = ofamVal fb i j
}.

(** the blocks of memory reachable from a state *)
Definition oarrBlk (a : option arr) : list nat := match a with Some x => [blk x] | None => [] end.
Definition oiarrBlk (a : option iarr) : list nat := match a with Some x => [iblk x] | None => [] end.
Definition ofamBlk (n : nat) (f : option ofam) : list nat :=
  match f with Some f => ol1 f :: flat_map (fun k => oarrBlk (ocol f k)) (seq 0 n) | None => [] end.
Definition famBlk (n : nat) (f : fam) : list nat := l1 f :: map (fun k => blk (col f k)) (seq 0 n).
Definition blocks (t : tables) (s : state) : list nat :=
  [blk (bulk s); blk (dspBulk s); iblk (nSol s); iblk (inc s); iblk (cyl s)] ++
  famBlk (Nat.max 1 (nLiq s)) (liq s) ++ famBlk (Nat.max 1 (nLiq s)) (liqD s) ++
  famBlk (npc t) (sol s) ++ famBlk (npc t) (solD s) ++
  ofamBlk (npc t) (frac s) ++ oiarrBlk (nFrac s) ++ oarrBlk (fracL s) ++
  ofamBlk (npc t + nc t) (dspAs s) ++ oiarrBlk (nDspAs s) ++
  ofamBlk (npc t + nlc t) (asC s) ++ oiarrBlk (nAs s) ++ oarrBlk (ySol s) ++ oarrBlk (yLiq s).

(** ** States the program makes *)
(** amounts are recorded with phases, never with components *)
Definition counts (t : tables) (c : iarr) : Prop :=
  forall i, i < npc t -> 0 < ival c i -> isPhase t i = true /\ (1 < na t i -> i + na t i < npc t /\ forall k, k < na t i -> ival c (i + 1 + k) = 0).
(** and a recorded amount has a column to be in *)
Definition filled (t : tables) (c : iarr) (f : ofam) : Prop :=
  forall i, i < npc t -> 0 < ival c i -> ocol f i <> None /\ (1 < na t i -> forall k, k < na t i -> ocol f (i + 1 + k) <> None).
Record wf (t : tables) (s : state) : Prop := Wf {
  wf_nLiq : 1 <= nLiq s;
  wf_sol : counts t (nSol s);
  wf_both : nFrac s = None <-> frac s = None;
  wf_frac : forall c f, nFrac s = Some c -> frac s = Some f -> counts t c /\ filled t c f
}.
(** no records are left of a mode that has been switched off, and no
    saturation state is kept *)
Definition tidy (s : state) : Prop :=
  (fSol s || fFlu s = false -> frac s = None /\ nFrac s = None) /\ (fLiq s = false -> fracL s = None) /\
  (assim s = false -> dspAs s = None /\ nDspAs s = None /\ asC s = None /\ nAs s = None) /\ ySol s = None /\ yLiq s = None.

(** ** Loops *)
Lemma for_inv {X} (P : nat -> X -> Prop) n f (x : X) : P 0 x -> (forall i y, i < n -> P i y -> P (S i) (f i y)) -> P n (for_ n f x).
Proof. intros H0 HS. induction n as [|n IH]; [exact H0|]. cbn [for_]. apply HS; [lia|]. apply IH. intros; apply HS; [lia|assumption]. Qed.
Lemma upto_lt {X} n (f g : nat -> X) j : j < n -> upto n f g j = f j.
Proof. intros H. unfold upto. destruct (Nat.ltb_spec j n); [reflexivity|lia]. Qed.
Lemma setCol_col f i a k : col (setCol f i a) k = if k =? i then a else col f k.
Proof. reflexivity. Qed.

Section Copy.
Variable t : tables.

(** ** A new copy *)
Section New.
Variable o : state.
Variable q : nat.
Hypothesis Wo : wf t o.
Let ns i := ival (nSol o) i.
Let putv (src : fam) (p i k : nat) := Arr (p + k) (upto (ns i) (val (col src k)) zeros).
Let put i k (s : fam * fam) :=
        (setCol (fst s) k (Arr (q + k) (upto (ns i) (val (col (sol o) k)) zeros)),
         setCol (snd s) k (Arr (q + npc t + k) (upto (ns i) (val (col (solD o) k)) zeros))).
Lemma put_loop i n s r :
  col (fst (for_ n (fun k s => put i (i + 1 + k) s) s)) r = (if (i <? r) && (r <=? i + n) then putv (sol o) q i r else col (fst s) r) /\
  col (snd (for_ n (fun k s => put i (i + 1 + k) s) s)) r = (if (i <? r) && (r <=? i + n) then putv (solD o) (q + npc t) i r else col (snd s) r).
Proof.
  induction n as [|n [IH1 IH2]]; cbn [for_].
  - replace ((i <? r) && (r <=? i + 0)) with false; [split; reflexivity|].
    destruct (Nat.ltb_spec i r), (Nat.leb_spec r (i + 0)); try reflexivity; lia.
  - set (u := for_ n _ s) in *. unfold put at 1 2. cbn [fst snd]. rewrite !setCol_col, IH1, IH2.
    destruct (Nat.eqb_spec r (i + 1 + n)) as [->|Ne].
    + replace ((i <? i + 1 + n) && (i + 1 + n <=? i + S n)) with true; [split; reflexivity|].
      destruct (Nat.ltb_spec i (i + 1 + n)), (Nat.leb_spec (i + 1 + n) (i + S n)); try reflexivity; lia.
    + destruct (Nat.ltb_spec i r), (Nat.leb_spec r (i + n)), (Nat.leb_spec r (i + S n)); try lia; split; reflexivity.
Qed.
Lemma put_loop_l1 i n s : l1 (fst (for_ n (fun k s => put i (i + 1 + k) s) s)) = l1 (fst s) /\ l1 (snd (for_ n (fun k s => put i (i + 1 + k) s) s)) = l1 (snd s).
Proof. apply (for_inv (fun _ u => l1 (fst u) = l1 (fst s) /\ l1 (snd u) = l1 (snd s))); [split; reflexivity|]. intros k y _ H. exact H. Qed.
Definition goodAt (s : fam * fam) (r : nat) : Prop :=
  forall j, j < ns r ->
    val (col (sol o) r) j = val (col (fst s) r) j /\ val (col (solD o) r) j = val (col (snd s) r) j /\
    (1 < na t r -> forall k, k < na t r ->
       val (col (sol o) (r + 1 + k)) j = val (col (fst s) (r + 1 + k)) j /\
       val (col (solD o) (r + 1 + k)) j = val (col (snd s) (r + 1 + k)) j).
Lemma newSolids_spec fuel : forall i s, npc t - i <= fuel ->
  let s' := newSolids fuel i t o q s in
  (forall r, r < i -> col (fst s') r = col (fst s) r /\ col (snd s') r = col (snd s) r) /\
  (forall r, i <= r < npc t -> blk (col (fst s') r) = q + r /\ blk (col (snd s') r) = q + npc t + r) /\
  (forall r, i <= r < npc t -> goodAt s' r) /\ l1 (fst s') = l1 (fst s) /\ l1 (snd s') = l1 (snd s).
Proof.
  induction fuel as [|f IH]; intros i s Hf s'.
  { split; [intros; split; reflexivity|]. split; [intros; lia|]. split; [intros; lia|]. split; reflexivity. }
  unfold s'. cbn [newSolids]. fold ns. fold (ns i).
  destruct (Nat.ltb_spec i (npc t)) as [Hi|Hi].
  2:{ split; [intros; split; reflexivity|]. split; [intros; lia|]. split; [intros; lia|]. split; reflexivity. }
  destruct (Nat.ltb_spec 0 (ns i)) as [Hn|Hn].
  - destruct (wf_sol t o Wo i Hi Hn) as [Ph Cm]. rewrite Ph.
    destruct (Nat.ltb_spec 1 (na t i)) as [H1|H1].
    + destruct (Cm H1) as [Hb Hc].
      match goal with |- context [newSolids f _ t o q ?u] => set (s1 := u) end.
      destruct (IH (S (i + na t i)) s1 ltac:(lia)) as [Fr [Bk [Gd [L1 L2]]]].
      set (s2 := newSolids f (S (i + na t i)) t o q s1) in *.
      assert (C1 : forall r, col (fst s1) r = (if (i <? r) && (r <=? i + na t i) then putv (sol o) q i r else if r =? i then putv (sol o) q i i else col (fst s) r) /\
                             col (snd s1) r = (if (i <? r) && (r <=? i + na t i) then putv (solD o) (q + npc t) i r else if r =? i then putv (solD o) (q + npc t) i i else col (snd s) r)).
      { intros r. unfold s1. destruct (put_loop i (na t i) (put i i s) r) as [E1 E2]. split; [exact E1|exact E2]. }
      assert (G1 : goodAt s2 i).
      { intros j Hj. destruct (Fr i ltac:(lia)) as [Fa Fb]. destruct (C1 i) as [Ca Cb]. rewrite Fa, Fb, Ca, Cb.
        rewrite Nat.ltb_irrefl, Nat.eqb_refl. cbn [andb]. unfold putv. cbn [val]. rewrite !upto_lt by assumption.
        split; [reflexivity|]. split; [reflexivity|]. intros _ k Hk. destruct (Fr (i + 1 + k) ltac:(lia)) as [Fa' Fb']. destruct (C1 (i + 1 + k)) as [Ca' Cb'].
        rewrite Fa', Fb', Ca', Cb'. replace ((i <? i + 1 + k) && (i + 1 + k <=? i + na t i)) with true.
        2:{ destruct (Nat.ltb_spec i (i + 1 + k)), (Nat.leb_spec (i + 1 + k) (i + na t i)); try reflexivity; lia. }
        unfold putv. cbn [val]. rewrite !upto_lt by assumption. split; reflexivity. }
      split; [|split; [|split; [|split]]].
      * intros r Hr. destruct (Fr r ltac:(lia)) as [Fa Fb]. destruct (C1 r) as [Ca Cb]. rewrite Fa, Fb, Ca, Cb.
        destruct (Nat.ltb_spec i r); [lia|]. destruct (Nat.eqb_spec r i); [lia|]. split; reflexivity.
      * intros r Hr. destruct (Nat.lt_ge_cases r (S (i + na t i))) as [L|G]; [|apply Bk; lia].
        destruct (Fr r L) as [Fa Fb]. destruct (C1 r) as [Ca Cb]. rewrite Fa, Fb, Ca, Cb.
        destruct (Nat.ltb_spec i r); destruct (Nat.leb_spec r (i + na t i)); try lia; cbn [andb].
        -- split; reflexivity.
        -- destruct (Nat.eqb_spec r i); [subst r|lia]. split; reflexivity.
      * intros r Hr. destruct (Nat.lt_ge_cases r (S (i + na t i))) as [L|G]; [|apply Gd; lia].
        destruct (Nat.eq_dec r i) as [->|Ne]; [exact G1|]. intros j Hj. exfalso.
        specialize (Hc (r - i - 1) ltac:(lia)). replace (i + 1 + (r - i - 1)) with r in Hc by lia. unfold ns in Hj. lia.
      * rewrite L1. unfold s1. apply (put_loop_l1 i (na t i) (put i i s)).
      * rewrite L2. unfold s1. apply (put_loop_l1 i (na t i) (put i i s)).
    + match goal with |- context [newSolids f _ t o q ?u] => set (s1 := u) end.
      destruct (IH (S i) s1 ltac:(lia)) as [Fr [Bk [Gd [L1 L2]]]]. split; [|split; [|split; [|split]]].
      * intros r Hr. destruct (Fr r ltac:(lia)) as [-> ->]. unfold s1. cbn [fst snd]. rewrite !setCol_col. destruct (Nat.eqb_spec r i); [lia|]. split; reflexivity.
      * intros r Hr. destruct (Nat.eq_dec r i) as [->|Ne]; [|apply Bk; lia]. destruct (Fr i ltac:(lia)) as [-> ->]. unfold s1. cbn [fst snd]. rewrite !setCol_col, Nat.eqb_refl. split; reflexivity.
      * intros r Hr. destruct (Nat.eq_dec r i) as [->|Ne]; [|apply Gd; lia]. intros j Hj. destruct (Fr i ltac:(lia)) as [-> ->]. unfold s1. cbn [fst snd].
        rewrite !setCol_col, Nat.eqb_refl. cbn [val]. rewrite !upto_lt by assumption. split; [reflexivity|]. split; [reflexivity|]. intros; lia.
      * rewrite L1. reflexivity.
      * rewrite L2. reflexivity.
  - match goal with |- context [newSolids f _ t o q ?u] => set (s1 := u) end.
    destruct (IH (S i) s1 ltac:(lia)) as [Fr [Bk [Gd [L1 L2]]]]. split; [|split; [|split; [|split]]].
    + intros r Hr. destruct (Fr r ltac:(lia)) as [-> ->]. unfold s1. cbn [fst snd]. rewrite !setCol_col. destruct (Nat.eqb_spec r i); [lia|]. split; reflexivity.
    + intros r Hr. destruct (Nat.eq_dec r i) as [->|Ne]; [|apply Bk; lia]. destruct (Fr i ltac:(lia)) as [-> ->]. unfold s1. cbn [fst snd]. rewrite !setCol_col, Nat.eqb_refl. split; reflexivity.
    + intros r Hr. destruct (Nat.eq_dec r i) as [->|Ne]; [|apply Gd; lia]. intros j Hj. lia.
    + rewrite L1. reflexivity.
    + rewrite L2. reflexivity.
Qed.

(** fractionated material *)
Lemma oput_loop (v : nat -> option arr) i n g r :
  ocol (for_ n (fun k g => osetCol g (i + 1 + k) (v (i + 1 + k))) g) r = if (i <? r) && (r <=? i + n) then v r else ocol g r.
Proof.
  induction n as [|n IH]; cbn [for_].
  - replace ((i <? r) && (r <=? i + 0)) with false; [reflexivity|].
    destruct (Nat.ltb_spec i r), (Nat.leb_spec r (i + 0)); try reflexivity; lia.
  - set (u := for_ n _ g) in *. unfold osetCol at 1. cbn [ocol]. rewrite IH.
    destruct (Nat.eqb_spec r (i + 1 + n)) as [->|Ne].
    + replace ((i <? i + 1 + n) && (i + 1 + n <=? i + S n)) with true; [reflexivity|].
      destruct (Nat.ltb_spec i (i + 1 + n)), (Nat.leb_spec (i + 1 + n) (i + S n)); try reflexivity; lia.
    + destruct (Nat.ltb_spec i r), (Nat.leb_spec r (i + n)), (Nat.leb_spec r (i + S n)); try lia; reflexivity.
Qed.
Lemma oput_loop_l1 (v : nat -> option arr) i n g : ol1 (for_ n (fun k g => osetCol g (i + 1 + k) (v (i + 1 + k))) g) = ol1 g.
Proof. apply (for_inv (fun _ u => ol1 u = ol1 g)); [reflexivity|]. intros k y _ H. exact H. Qed.
Definition fracGood (n : iarr) (f g : ofam) (r : nat) : Prop :=
  forall j, j < ival n r -> ofamVal f r j = ofamVal g r j /\
    (1 < na t r -> forall k, k < na t r -> ofamVal f (r + 1 + k) j = ofamVal g (r + 1 + k) j).
Lemma newFrac_spec : fSol o || fFlu o = true ->
  exists g c, newFrac t o q = (Some g, Some c) /\ ol1 g = q /\ iblk c = q + 1 /\
    (forall k a, ocol g k = Some a -> blk a = q + 2 + k) /\
    (forall n f, nFrac o = Some n -> frac o = Some f -> intsEq (npc t) n c /\ forall i, i < npc t -> fracGood n f g i).
Proof.
  intros Hf. unfold newFrac. rewrite Hf.
  destruct (nFrac o) as [n|] eqn:En; [|eexists _, _; split; [reflexivity|]; cbn; repeat split; intros; discriminate].
  destruct (frac o) as [f|] eqn:Ef; [|eexists _, _; split; [reflexivity|]; cbn; repeat split; intros; discriminate].
  destruct (wf_frac t o Wo n f En Ef) as [Cn Fi].
  set (body := fun i (s : ofam * iarr) => _).
  set (z := (OFam q (fun _ => None), IArr (q + 1) (fun _ => 0))).
  assert (K : forall m, m <= npc t ->
     let r := for_ m body z in
     ol1 (fst r) = q /\ iblk (snd r) = q + 1 /\ (forall k a, ocol (fst r) k = Some a -> blk a = q + 2 + k) /\
     (forall k, k < m -> ival n k = ival (snd r) k) /\ (forall i, i < m -> fracGood n f (fst r) i)).
  { intros m Hm. induction m as [|m IH].
    - cbn. repeat split; intros; try discriminate; lia.
    - cbn [for_]. destruct (IH ltac:(lia)) as [L1 [Lc [Bk [Iv Gd]]]]. set (r := for_ m body z) in *.
      unfold body. cbn [fst snd iblk ival].
      set (v := fun k => Some (Arr (q + 2 + k) (upto (ival n m) (match ocol f k with Some a => val a | None => zeros end) zeros))).
      destruct (Nat.ltb_spec 0 (ival n m)) as [Hn|Hn].
      + destruct (Cn m ltac:(lia) Hn) as [_ Cm]. destruct (Fi m ltac:(lia) Hn) as [_ Fm].
        set (g1 := osetCol (fst r) m (v m)).
        set (g2 := if 1 <? na t m then _ else _).
        assert (O2 : forall p, ocol g2 p = if (m <? p) && (p <=? m + na t m) && (1 <? na t m) then v p else if p =? m then v m else ocol (fst r) p).
        { intros p. unfold g2. destruct (Nat.ltb_spec 1 (na t m)).
          - rewrite andb_true_r. exact (oput_loop v m (na t m) g1 p).
          - rewrite andb_false_r. reflexivity. }
        assert (L2 : ol1 g2 = q). { unfold g2. destruct (1 <? na t m); [|exact L1]. etransitivity; [exact (oput_loop_l1 v m (na t m) g1)|exact L1]. }
        split; [exact L2|]. split; [exact Lc|]. split; [|split].
        * intros k a E. rewrite O2 in E. destruct ((m <? k) && (k <=? m + na t m) && (1 <? na t m)).
          -- injection E as <-. reflexivity.
          -- destruct (Nat.eqb_spec k m); [subst k; injection E as <-; reflexivity|]. apply Bk. assumption.
        * intros k Hk. destruct (Nat.eqb_spec k m); [subst k; reflexivity|]. apply Iv. lia.
        * intros i Hi j Hj. destruct (Nat.eq_dec i m) as [->|Ne].
          -- unfold ofamVal. rewrite (O2 m), Nat.ltb_irrefl, Nat.eqb_refl. cbn [andb]. unfold v at 1. cbn [val]. rewrite upto_lt by assumption.
             split; [destruct (ocol f m); reflexivity|]. intros H1 k Hk. rewrite (O2 (m + 1 + k)).
             replace ((m <? m + 1 + k) && (m + 1 + k <=? m + na t m) && (1 <? na t m)) with true.
             2:{ destruct (Nat.ltb_spec m (m + 1 + k)), (Nat.leb_spec (m + 1 + k) (m + na t m)), (Nat.ltb_spec 1 (na t m)); try reflexivity; lia. }
             unfold v at 1. cbn [val]. rewrite upto_lt by assumption. destruct (ocol f (m + 1 + k)); reflexivity.
          -- destruct (Gd i ltac:(lia) j Hj) as [Ga Gb].
             assert (Out : forall p, p < m -> ofamVal g2 p j = ofamVal (fst r) p j).
             { intros p Hp. unfold ofamVal. rewrite O2. destruct (Nat.ltb_spec m p); [lia|]. destruct (Nat.eqb_spec p m); [lia|]. reflexivity. }
             rewrite Out by lia. split; [exact Ga|]. intros H1 k Hk. rewrite Out; [apply Gb; assumption|].
             (* a component of phase i carries no count, so it is not where m is *)
             destruct (Cn i ltac:(lia) ltac:(lia)) as [_ Ci]. destruct (Ci H1) as [_ C0].
             destruct (Nat.lt_ge_cases (i + 1 + k) m) as [|G]; [assumption|]. exfalso.
             specialize (C0 (m - i - 1) ltac:(lia)). replace (i + 1 + (m - i - 1)) with m in C0 by lia. lia.
      + split; [exact L1|]. split; [exact Lc|]. split; [exact Bk|]. split.
        * intros k Hk. destruct (Nat.eqb_spec k m); [subst k; reflexivity|]. apply Iv. lia.
        * intros i Hi. destruct (Nat.eq_dec i m) as [->|Ne]; [intros j Hj; lia|]. apply Gd. lia. }
  destruct (K (npc t) (le_n _)) as [L1 [Lc [Bk [Iv Gd]]]].
  eexists _, _. split; [reflexivity|]. split; [exact L1|]. split; [exact Lc|]. split; [exact Bk|].
  intros n' f' E1 E2. injection E1 as <-. injection E2 as <-. split; [exact Iv|exact Gd].
Qed.
End New.

(** assimilants *)
Lemma newAssim_spec n c f q : exists g d, newAssim n c f q = (Some g, Some d) /\ ol1 g = q /\ iblk d = q + 1 /\
  (forall k a, ocol g k = Some a -> blk a = q + 2 + k) /\
  (forall c' f', c = Some c' -> f = Some f' -> intsEq n c' d /\ forall i j, i < n -> j < ival c' i -> ofamVal f' i j = ofamVal g i j).
Proof.
  unfold newAssim. destruct c as [c|]; [|eexists _, _; split; [reflexivity|]; cbn; repeat split; intros; discriminate].
  destruct f as [f|]; [|eexists _, _; split; [reflexivity|]; cbn; repeat split; intros; discriminate].
  eexists _, _. split; [reflexivity|]. split; [reflexivity|]. split; [reflexivity|]. split.
  - intros k a. cbn [ocol]. destruct ((k <? n) && (0 <? ival c k)); [|discriminate]. intros E. injection E as <-. reflexivity.
  - intros c' f' E1 E2. injection E1 as <-. injection E2 as <-. split; [intros j Hj; cbn [ival]; rewrite upto_lt by assumption; reflexivity|].
    intros i j Hi Hj. unfold ofamVal at 2. cbn [ocol]. destruct (Nat.ltb_spec i n); [|lia]. destruct (Nat.ltb_spec 0 (ival c i)); [|lia].
    cbn [andb val]. rewrite upto_lt by assumption. unfold ofamVal. destruct (ocol f i); reflexivity.
Qed.
End Copy.

(** ** The theorems about a new copy *)
Theorem C37_new_copy_same : forall t o q, wf t o -> sameContent t o (copyNew t o q).
Proof.
  intros t o q W. unfold copyNew. cbv zeta.
  set (q2 := q + 11 + 2 * Nat.max 1 (nLiq o)). set (q3 := q2 + 2 * npc t). set (q4 := q3 + 2 + npc t). set (q5 := q4 + 1). set (q6 := q5 + 2 + (npc t + nc t)).
  destruct (newSolids_spec t o q2 W (npc t) 0 (Fam (q + 5) (fun _ => Arr 0 zeros), Fam (q + 6) (fun _ => Arr 0 zeros)) ltac:(lia)) as [_ [_ [Gd _]]].
  set (s := newSolids _ _ _ _ _ _) in *.
  constructor; cbn; try reflexivity; try (intros j Hj; rewrite ?upto_lt by assumption; cbn; rewrite ?upto_lt by assumption; reflexivity).
  - intros i Hi j Hj. cbn. rewrite upto_lt by assumption. reflexivity.
  - intros i Hi j Hj. cbn. rewrite upto_lt by assumption. reflexivity.
  - intros i j Hi Hj. apply (Gd i ltac:(lia) j Hj).
  - intros Hf ca fa Ea Eb. destruct (newFrac_spec t o q3 W Hf) as [g [c [E [_ [_ [_ G]]]]]]. rewrite E. cbn [fst snd].
    exists c, g. split; [reflexivity|]. split; [reflexivity|]. destruct (G ca fa Ea Eb) as [Gc Gv]. split; [exact Gc|].
    intros i j Hi Hj. apply (Gv i Hi j Hj).
  - intros Hf x Ex. rewrite Hf, Ex. eexists. split; [reflexivity|]. intros j Hj. cbn [val]. rewrite upto_lt by assumption. reflexivity.
  - intros Ha ca fa Ea Eb. rewrite Ha. destruct (newAssim_spec (npc t + nc t) (nDspAs o) (dspAs o) q5) as [g [d [E [_ [_ [_ G]]]]]].
    rewrite E. cbn [fst snd]. exists d, g. split; [reflexivity|]. split; [reflexivity|]. apply (G ca fa Ea Eb).
  - intros Ha ca fa Ea Eb. rewrite Ha. destruct (newAssim_spec (npc t + nlc t) (nAs o) (asC o) q6) as [g [d [E [_ [_ [_ G]]]]]].
    rewrite E. cbn [fst snd]. exists d, g. split; [reflexivity|]. split; [reflexivity|]. apply (G ca fa Ea Eb).
Qed.

Lemma ofamBlk_ge n f q : (forall g, f = Some g -> q <= ol1 g /\ forall k a, ocol g k = Some a -> q <= blk a) -> forall b, In b (ofamBlk n f) -> q <= b.
Proof.
  intros H b. destruct f as [g|]; [|intros []]. destruct (H g eq_refl) as [H1 H2]. intros [<-|I]; [exact H1|].
  apply in_flat_map in I. destruct I as [k [_ I]]. destruct (ocol g k) as [a|] eqn:E; [|destruct I]. destruct I as [<-|[]]. apply (H2 k a E).
Qed.
Lemma famBlk_ge n f q : q <= l1 f -> (forall k, k < n -> q <= blk (col f k)) -> forall b, In b (famBlk n f) -> q <= b.
Proof. intros H1 H2 b [<-|I]; [exact H1|]. apply in_map_iff in I. destruct I as [k [<- I]]. apply in_seq in I. apply H2. lia. Qed.
(** q is above every block of the program so far, so all the blocks of the new
    copy are its own *)
Theorem C37_new_copy_independent_partial : forall t o q, wf t o -> tidy o ->
  forall b, In b (blocks t (copyNew t o q)) -> q <= b.
Proof.
  intros t o q W [Tf [Tl [Ta [Ts Ty]]]] b. unfold copyNew. cbv zeta.
  set (q2 := q + 11 + 2 * Nat.max 1 (nLiq o)). set (q3 := q2 + 2 * npc t). set (q4 := q3 + 2 + npc t). set (q5 := q4 + 1). set (q6 := q5 + 2 + (npc t + nc t)).
  destruct (newSolids_spec t o q2 W (npc t) 0 (Fam (q + 5) (fun _ => Arr 0 zeros), Fam (q + 6) (fun _ => Arr 0 zeros)) ltac:(lia)) as [_ [Bk [_ [L1 L2]]]].
  set (s := newSolids _ _ _ _ _ _) in *.
  unfold blocks. cbn [bulk dspBulk nSol inc cyl liq liqD nLiq sol solD frac nFrac fracL dspAs nDspAs asC nAs ySol yLiq].
  rewrite Ts, Ty. cbn [oarrBlk app]. rewrite ?app_nil_r.
  intros I.
  repeat match type of I with
  | _ \/ _ => destruct I as [I|I]
  | In _ (_ :: _) => destruct I as [I|I]
  | In _ (_ ++ _) => apply in_app_or in I; destruct I as [I|I]
  end; try (cbn in I; lia).
  - revert I. apply famBlk_ge; cbn; intros; lia.
  - revert I. apply famBlk_ge; cbn; intros; lia.
  - revert I. apply famBlk_ge; [rewrite L1; cbn; lia|]. intros k Hk. destruct (Bk k ltac:(lia)) as [-> _]. unfold q2. lia.
  - revert I. apply famBlk_ge; [rewrite L2; cbn; lia|]. intros k Hk. destruct (Bk k ltac:(lia)) as [_ ->]. unfold q2. lia.
  - revert I. apply ofamBlk_ge. intros g Eg. destruct (fSol o || fFlu o) eqn:Ff.
    + destruct (newFrac_spec t o q3 W Ff) as [g' [c [E [G1 [_ [G2 _]]]]]]. rewrite E in Eg. cbn in Eg. injection Eg as <-.
      split; [unfold q3, q2 in G1; lia|]. intros k a Ea. rewrite (G2 k a Ea). unfold q3, q2. lia.
    + unfold newFrac in Eg. rewrite Ff in Eg. destruct (Tf eq_refl) as [E _]. cbn in Eg. congruence.
  - destruct (fSol o || fFlu o) eqn:Ff.
    + destruct (newFrac_spec t o q3 W Ff) as [g' [c [E [_ [G1 _]]]]]. rewrite E in I. cbn in I. unfold q3, q2 in G1. lia.
    + unfold newFrac in I. rewrite Ff in I. destruct (Tf eq_refl) as [_ E]. cbn in I. rewrite E in I. destruct I.
  - destruct (fLiq o); [cbn in I; unfold q4, q3, q2 in I; lia|]. rewrite Tl in I by reflexivity. destruct I.
  - revert I. apply ofamBlk_ge. intros g Eg. destruct (assim o).
    + destruct (newAssim_spec (npc t + nc t) (nDspAs o) (dspAs o) q5) as [g' [d [E [G1 [_ [G2 _]]]]]]. rewrite E in Eg. cbn in Eg. injection Eg as <-.
      split; [unfold q5, q4, q3, q2 in G1; lia|]. intros k a Ea. rewrite (G2 k a Ea). unfold q5, q4, q3, q2. lia.
    + destruct (Ta eq_refl) as [E _]. cbn in Eg. congruence.
  - destruct (assim o).
    + destruct (newAssim_spec (npc t + nc t) (nDspAs o) (dspAs o) q5) as [g' [d [E [_ [G1 _]]]]]. rewrite E in I. cbn in I. unfold q5, q4, q3, q2 in G1. lia.
    + destruct (Ta eq_refl) as [_ [E _]]. cbn in I. rewrite E in I. destruct I.
  - revert I. apply ofamBlk_ge. intros g Eg. destruct (assim o).
    + destruct (newAssim_spec (npc t + nlc t) (nAs o) (asC o) q6) as [g' [d [E [G1 [_ [G2 _]]]]]]. rewrite E in Eg. cbn in Eg. injection Eg as <-.
      split; [unfold q6, q5, q4, q3, q2 in G1; lia|]. intros k a Ea. rewrite (G2 k a Ea). unfold q6, q5, q4, q3, q2. lia.
    + destruct (Ta eq_refl) as [_ [_ [E _]]]. cbn in Eg. congruence.
  - destruct (assim o).
    + destruct (newAssim_spec (npc t + nlc t) (nAs o) (asC o) q6) as [g' [d [E [_ [G1 _]]]]]. rewrite E in I. cbn in I. unfold q6, q5, q4, q3, q2 in G1. lia.
    + destruct (Ta eq_refl) as [_ [_ [_ E]]]. cbn in I. rewrite E in I. destruct I.
Qed.
(** the same as a property of its own (C108) *)
Theorem C108_new_copy_independent : forall t o q, wf t o -> tidy o ->
  forall b, In b (blocks t (copyNew t o q)) -> q <= b.
Proof. exact C37_new_copy_independent_partial. Qed.

(** ** Overwriting an existing state *)
Lemma intoLiq_col t no nn src dst q i : 1 <= nn -> i < Nat.max 1 no -> no <> nn \/ no <= 1 ->
  arrEq (nlc t) (col src i) (col (intoLiq t no nn src dst q) i).
Proof.
  intros Hn Hi Hc j Hj. unfold intoLiq. destruct (Nat.eqb_spec nn no) as [E|E].
  - assert (i = 0) by lia. subst i. cbn. rewrite upto_lt by assumption. reflexivity.
  - cbn [col]. destruct (Nat.leb_spec 1 i); destruct (Nat.ltb_spec i no); cbn [andb]; try (exfalso; lia).
    + cbn [val copyArr]. rewrite upto_lt by assumption. reflexivity.
    + assert (i = 0) by lia. subst i. destruct (Nat.leb_spec nn 0); [lia|]. cbn. rewrite upto_lt by assumption. reflexivity.
    + assert (i = 0) by lia. subst i. destruct (Nat.leb_spec nn 0); [lia|]. cbn. rewrite upto_lt by assumption. reflexivity.
Qed.
Lemma intoLiq_blk t no nn src dst q i : i < Nat.max 1 no ->
  (i < Nat.max 1 nn /\ blk (col (intoLiq t no nn src dst q) i) = blk (col dst i)) \/ q <= blk (col (intoLiq t no nn src dst q) i).
Proof.
  intros Hi. unfold intoLiq. destruct (Nat.eqb_spec nn no) as [E|E].
  - left. split; [lia|]. cbn. destruct (Nat.eqb_spec i 0); [subst; reflexivity|reflexivity].
  - cbn [col]. destruct (Nat.leb_spec 1 i); destruct (Nat.ltb_spec i no); destruct (Nat.leb_spec nn i); cbn [andb]; try (exfalso; lia); try (right; cbn [blk copyArr]; lia);
      left; (split; [lia|]); cbn [blk copyArr col setCol]; destruct (Nat.eqb_spec i 0); subst; reflexivity.
Qed.
(** *** solids *)
Section IntoSol.
Variable t : tables. Variable o : state. Variable src dst : fam.
Let step i d :=
    let ns := ival (nSol o) i in
    let cp k d := setCol d k (copyArr ns (col src k) (col d k)) in
    let d := cp i d in
    if isPhase t i && (1 <? na t i) then for_ (na t i) (fun k d => cp (i + 1 + k) d) d else d.
Definition agreed (r j : nat) (d : fam) : Prop := val (col src r) j = val (col d r) j.
Lemma cp_agreed r j ns k d : agreed r j d -> agreed r j (setCol d k (copyArr ns (col src k) (col d k))).
Proof.
  unfold agreed. intros H. rewrite setCol_col. destruct (Nat.eqb_spec r k); [subst k|exact H].
  cbn [val copyArr]. unfold upto. destruct (j <? ns); [reflexivity|exact H].
Qed.
Lemma cp_makes j ns k d : j < ns -> agreed k j (setCol d k (copyArr ns (col src k) (col d k))).
Proof. intros H. unfold agreed. rewrite setCol_col, Nat.eqb_refl. cbn [val copyArr]. rewrite upto_lt by assumption. reflexivity. Qed.
Lemma step_agreed r j i d : agreed r j d -> agreed r j (step i d).
Proof.
  intros H. unfold step. cbv zeta. apply (cp_agreed _ _ (ival (nSol o) i) i) in H. destruct (isPhase t i && (1 <? na t i)); [|exact H].
  apply (for_inv (fun _ d => agreed r j d)); [exact H|]. intros k y _ Hy. apply cp_agreed, Hy.
Qed.
Lemma step_makes j i d : j < ival (nSol o) i -> isPhase t i = true ->
  agreed i j (step i d) /\ (1 < na t i -> forall k, k < na t i -> agreed (i + 1 + k) j (step i d)).
Proof.
  intros Hj Ph. split.
  - unfold step. cbv zeta. pose proof (cp_makes j (ival (nSol o) i) i d Hj) as H. destruct (isPhase t i && (1 <? na t i)); [|exact H].
    apply (for_inv (fun _ d => agreed i j d)); [exact H|]. intros k y _ Hy. apply cp_agreed, Hy.
  - intros H1. unfold step. cbv zeta. rewrite Ph. destruct (Nat.ltb_spec 1 (na t i)); [|lia]. cbn [andb].
    set (d1 := setCol d i _). intros k Hk.
    refine (for_inv (fun m d => forall k, k < m -> agreed (i + 1 + k) j d) (na t i) _ d1 _ _ k Hk); [intros; lia|].
    intros m y Hm Hy k' Hk'. destruct (Nat.eq_dec k' m) as [->|]; [apply cp_makes; exact Hj|]. apply cp_agreed, Hy. lia.
Qed.
Lemma intoSolids_spec : counts t (nSol o) -> forall i j, i < npc t -> j < ival (nSol o) i ->
  agreed i j (intoSolids t o src dst) /\ (1 < na t i -> forall k, k < na t i -> agreed (i + 1 + k) j (intoSolids t o src dst)).
Proof.
  intros C. change (intoSolids t o src dst) with (for_ (npc t) step dst).
  refine (for_inv (fun m d => forall i j, i < m -> j < ival (nSol o) i -> agreed i j d /\ (1 < na t i -> forall k, k < na t i -> agreed (i + 1 + k) j d)) (npc t) step dst _ _); [intros; lia|].
  intros m d Hm IH i j Hi Hj. destruct (Nat.eq_dec i m) as [->|].
  - apply step_makes; [exact Hj|]. apply (C m Hm). lia.
  - destruct (IH i j ltac:(lia) Hj) as [Ia Ib]. split; [apply step_agreed, Ia|]. intros H1 k Hk. apply step_agreed, Ib; assumption.
Qed.
Lemma intoSolids_blk : l1 (intoSolids t o src dst) = l1 dst /\ forall k, blk (col (intoSolids t o src dst) k) = blk (col dst k).
Proof.
  change (intoSolids t o src dst) with (for_ (npc t) step dst).
  set (P := fun d : fam => l1 d = l1 dst /\ forall k, blk (col d k) = blk (col dst k)).
  assert (Cp : forall ns i d, P d -> P (setCol d i (copyArr ns (col src i) (col d i)))).
  { intros ns i d [H1 H2]. split; [exact H1|]. intros k. rewrite setCol_col. destruct (Nat.eqb_spec k i); [subst; apply H2|apply H2]. }
  apply (for_inv (fun _ d => P d)); [split; reflexivity|]. intros i d _ H. unfold step. cbv zeta.
  apply (Cp (ival (nSol o) i) i) in H. destruct (isPhase t i && (1 <? na t i)); [|exact H].
  apply (for_inv (fun _ d => P d)); [exact H|]. intros k y _ Hy. apply Cp, Hy.
Qed.
End IntoSol.
(** *** fractionated material *)
Section IntoFrac.
Variable t : tables. Variable q : nat. Variable c : iarr. Variable f : ofam.
Hypothesis Cc : counts t c.
Hypothesis Fi : filled t c f.
Let step i (s : ofam * iarr) :=
        let ns := ival c i in
        let grow k (g : ofam) := osetCol g k (Some (realloc (ocol g k) (q + 2 + k))) in
        let cp k (g : ofam) :=
          osetCol g k (match ocol g k, ocol f k with
                       | Some d, Some a => Some (copyArr ns a d)
                       | x, _ => x end) in
        let g := if ival (snd s) i =? ns then fst s
                 else let g := grow i (fst s) in if 1 <? na t i then for_ (na t i) (fun k g => grow (i + 1 + k) g) g else g in
        let g := if 0 <? ns then let g := cp i g in if 1 <? na t i then for_ (na t i) (fun k g => cp (i + 1 + k) g) g else g else g in
        (g, IArr (iblk (snd s)) (fun k => if k =? i then ns else ival (snd s) k)).
Let grow k (g : ofam) := osetCol g k (Some (realloc (ocol g k) (q + 2 + k))).
Let cp ns k (g : ofam) := osetCol g k (match ocol g k, ocol f k with Some d, Some a => Some (copyArr ns a d) | x, _ => x end).
Definition fagreed (r j : nat) (g : ofam) : Prop := exists d, ocol g r = Some d /\ ofamVal f r j = val d j.
Lemma grow_agreed r j k g : fagreed r j g -> fagreed r j (grow k g).
Proof.
  intros [d [E V]]. exists d. split; [|exact V]. unfold grow, osetCol. cbn [ocol]. destruct (Nat.eqb_spec r k); [subst k|exact E]. rewrite E. reflexivity.
Qed.
Lemma cpf_agreed r j ns k g : fagreed r j g -> fagreed r j (cp ns k g).
Proof.
  intros [d [E V]]. unfold fagreed, cp, osetCol. cbn [ocol]. destruct (Nat.eqb_spec r k); [subst k|exists d; split; assumption].
  rewrite E. unfold ofamVal in *. destruct (ocol f r) as [a|]; [|exists d; split; [reflexivity|exact V]].
  eexists. split; [reflexivity|]. cbn [val copyArr]. unfold upto. destruct (j <? ns); [reflexivity|exact V].
Qed.
Lemma cpf_makes j ns k g : j < ns -> ocol g k <> None -> ocol f k <> None -> fagreed k j (cp ns k g).
Proof.
  intros Hj G F. unfold fagreed, cp, osetCol. cbn [ocol]. rewrite Nat.eqb_refl. unfold ofamVal.
  destruct (ocol g k) as [d|]; [|congruence]. destruct (ocol f k) as [a|]; [|congruence].
  eexists. split; [reflexivity|]. cbn [val copyArr]. rewrite upto_lt by assumption. reflexivity.
Qed.
Lemma grow_some r k g : ocol g r <> None \/ r = k -> ocol (grow k g) r <> None.
Proof. intros H. unfold grow, osetCol. cbn [ocol]. destruct (Nat.eqb_spec r k); [discriminate|]. destruct H; [assumption|contradiction]. Qed.
Lemma cp_some r ns k g : ocol g r <> None -> ocol (cp ns k g) r <> None.
Proof.
  intros H. unfold cp, osetCol. cbn [ocol]. destruct (Nat.eqb_spec r k); [subst k|exact H].
  destruct (ocol g r); [|congruence]. destruct (ocol f r); discriminate.
Qed.
(** the two halves of a pass *)
Let growAll i g := let g := grow i g in if 1 <? na t i then for_ (na t i) (fun k g => grow (i + 1 + k) g) g else g.
Let cpAll ns i g := let g := cp ns i g in if 1 <? na t i then for_ (na t i) (fun k g => cp ns (i + 1 + k) g) g else g.
Lemma growAll_P (P : ofam -> Prop) i g : (forall k g, P g -> P (grow k g)) -> P g -> P (growAll i g).
Proof. intros H Hg. unfold growAll. cbv zeta. apply (H i) in Hg. destruct (1 <? na t i); [|exact Hg]. apply (for_inv (fun _ => P)); [exact Hg|]. intros; apply H; assumption. Qed.
Lemma cpAll_P (P : ofam -> Prop) ns i g : (forall k g, P g -> P (cp ns k g)) -> P g -> P (cpAll ns i g).
Proof. intros H Hg. unfold cpAll. cbv zeta. apply (H i) in Hg. destruct (1 <? na t i); [|exact Hg]. apply (for_inv (fun _ => P)); [exact Hg|]. intros; apply H; assumption. Qed.
Lemma growAll_some i g : ocol (growAll i g) i <> None /\ (1 < na t i -> forall k, k < na t i -> ocol (growAll i g) (i + 1 + k) <> None).
Proof.
  unfold growAll. cbv zeta. split.
  - assert (H : ocol (grow i g) i <> None) by (apply grow_some; right; reflexivity). destruct (1 <? na t i); [|exact H].
    apply (for_inv (fun _ g => ocol g i <> None)); [exact H|]. intros; apply grow_some; left; assumption.
  - intros H1. destruct (Nat.ltb_spec 1 (na t i)); [|lia]. intros k Hk.
    refine (for_inv (fun m g => forall k, k < m -> ocol g (i + 1 + k) <> None) (na t i) _ _ _ _ k Hk); [intros; lia|].
    intros m y Hm Hy k' Hk'. apply grow_some. destruct (Nat.eq_dec k' m) as [->|]; [right; reflexivity|left; apply Hy; lia].
Qed.
Lemma cpAll_makes j ns i g : j < ns -> ocol g i <> None -> ocol f i <> None ->
  (1 < na t i -> forall k, k < na t i -> ocol g (i + 1 + k) <> None /\ ocol f (i + 1 + k) <> None) ->
  fagreed i j (cpAll ns i g) /\ (1 < na t i -> forall k, k < na t i -> fagreed (i + 1 + k) j (cpAll ns i g)).
Proof.
  intros Hj Gi Fii Hk. unfold cpAll. cbv zeta. split.
  - pose proof (cpf_makes j ns i g Hj Gi Fii) as H. destruct (1 <? na t i); [|exact H].
    apply (for_inv (fun _ g => fagreed i j g)); [exact H|]. intros; apply cpf_agreed; assumption.
  - intros H1. destruct (Nat.ltb_spec 1 (na t i)); [|lia]. intros k Hkk.
    refine (proj2 (for_inv (fun m g => (forall k, k < na t i -> ocol g (i + 1 + k) <> None) /\ forall k, k < m -> fagreed (i + 1 + k) j g) (na t i) _ _ _ _) k Hkk).
    + split; [intros k' Hk'; apply cp_some, Hk; assumption|intros; lia].
    + intros m y Hm [Ya Yb]. split; [intros k' Hk'; apply cp_some, Ya, Hk'|].
      intros k' Hk'. destruct (Nat.eq_dec k' m) as [->|]; [|apply cpf_agreed, Yb; lia].
      apply cpf_makes; [exact Hj|apply Ya; lia|apply Hk; lia].
Qed.
Lemma step_eq i s : step i s = (let g := if ival (snd s) i =? ival c i then fst s else growAll i (fst s) in
   if 0 <? ival c i then cpAll (ival c i) i g else g, IArr (iblk (snd s)) (fun k => if k =? i then ival c i else ival (snd s) k)).
Proof. reflexivity. Qed.
Lemma intoFrac_loop z : filled t (snd z) (fst z) ->
  let r := for_ (npc t) step z in
  (forall k, k < npc t -> ival c k = ival (snd r) k) /\
  (forall i j, i < npc t -> j < ival c i -> fagreed i j (fst r) /\ (1 < na t i -> forall k, k < na t i -> fagreed (i + 1 + k) j (fst r))).
Proof.
  intros Fz.
  refine (match for_inv (fun m (r : ofam * iarr) =>
     (forall k, k < m -> ival c k = ival (snd r) k) /\ (forall k, m <= k -> ival (snd r) k = ival (snd z) k) /\
     (forall k, ocol (fst z) k <> None -> ocol (fst r) k <> None) /\
     (forall i j, i < m -> j < ival c i -> fagreed i j (fst r) /\ (1 < na t i -> forall k, k < na t i -> fagreed (i + 1 + k) j (fst r)))) (npc t) step z _ _
     with conj a (conj _ (conj _ d)) => conj a d end).
  { split; [intros; lia|]. split; [intros; reflexivity|]. split; [auto|]. intros; lia. }
  intros m s Hm [Ic [Iz [Is Ia]]]. rewrite step_eq. cbv zeta. cbn [fst snd ival].
  set (g := if ival (snd s) m =? ival c m then fst s else growAll m (fst s)).
  assert (Gs : forall k, ocol (fst z) k <> None -> ocol g k <> None).
  { intros k Hk. apply Is in Hk. unfold g. destruct (_ =? _); [exact Hk|]. apply (growAll_P (fun g => ocol g k <> None)); [|exact Hk]. intros; apply grow_some; left; assumption. }
  assert (Ga : forall i j, fagreed i j (fst s) -> fagreed i j g).
  { intros i j H. unfold g. destruct (_ =? _); [exact H|]. apply (growAll_P (fagreed i j)); [|exact H]. intros; apply grow_agreed; assumption. }
  set (g' := if 0 <? ival c m then cpAll (ival c m) m g else g).
  assert (Ga' : forall i j, fagreed i j g -> fagreed i j g').
  { intros i j H. unfold g'. destruct (0 <? _); [|exact H]. apply (cpAll_P (fagreed i j)); [|exact H]. intros; apply cpf_agreed; assumption. }
  split; [|split; [|split]].
  - intros k Hk. destruct (Nat.eqb_spec k m); [subst; reflexivity|]. apply Ic. lia.
  - intros k Hk. destruct (Nat.eqb_spec k m); [lia|]. apply Iz. lia.
  - intros k Hk. apply Gs in Hk. unfold g'. destruct (0 <? _); [|exact Hk]. apply (cpAll_P (fun g => ocol g k <> None)); [|exact Hk]. intros; apply cp_some; assumption.
  - intros i j Hi Hj. destruct (Nat.eq_dec i m) as [->|].
    + unfold g'. destruct (Nat.ltb_spec 0 (ival c m)); [|lia]. destruct (Fi m Hm ltac:(lia)) as [Fa Fb].
      assert (Sm : ocol g m <> None /\ (1 < na t m -> forall k, k < na t m -> ocol g (m + 1 + k) <> None)).
      { unfold g. destruct (Nat.eqb_spec (ival (snd s) m) (ival c m)) as [E|E]; [|apply growAll_some].
        rewrite Iz in E by lia. destruct (Fz m Hm ltac:(lia)) as [Za Zb]. split; [apply Is, Za|]. intros H1 k Hk. apply Is, Zb; assumption. }
      destruct Sm as [Sa Sb]. apply cpAll_makes; [exact Hj|exact Sa|exact Fa|]. intros H1 k Hk. split; [apply Sb|apply Fb]; assumption.
    + destruct (Ia i j ltac:(lia) Hj) as [Xa Xb]. split; [apply Ga', Ga, Xa|]. intros H1 k Hk. apply Ga', Ga, Xb; assumption.
Qed.
Lemma intoFrac_blk z : let r := for_ (npc t) step z in
  ol1 (fst r) = ol1 (fst z) /\ iblk (snd r) = iblk (snd z) /\
  forall k a, ocol (fst r) k = Some a -> (exists a', ocol (fst z) k = Some a' /\ blk a = blk a') \/ q <= blk a.
Proof.
  set (P := fun g : ofam => ol1 g = ol1 (fst z) /\ forall k a, ocol g k = Some a -> (exists a', ocol (fst z) k = Some a' /\ blk a = blk a') \/ q <= blk a).
  assert (Pg : forall k g, P g -> P (grow k g)).
  { intros k g [H1 H2]. split; [exact H1|]. intros r a. unfold grow, osetCol. cbn [ocol]. destruct (Nat.eqb_spec r k); [subst k|apply H2].
    intros E. injection E as <-. unfold realloc. destruct (ocol g r) as [x|] eqn:E; [apply H2; exact E|right; cbn; lia]. }
  assert (Pc : forall ns k g, P g -> P (cp ns k g)).
  { intros ns k g [H1 H2]. split; [exact H1|]. intros r a. unfold cp, osetCol. cbn [ocol]. destruct (Nat.eqb_spec r k); [subst k|apply H2].
    destruct (ocol g r) as [x|] eqn:E; [|discriminate]. destruct (ocol f r) as [y|]; intros E'; injection E' as <-; [cbn [blk copyArr]|]; apply H2; exact E. }
  assert (K : P (fst (for_ (npc t) step z)) /\ iblk (snd (for_ (npc t) step z)) = iblk (snd z)).
  { apply (for_inv (fun _ r => P (fst r) /\ iblk (snd r) = iblk (snd z))).
    - split; [|reflexivity]. split; [reflexivity|]. intros k a E. left. exists a. split; [exact E|reflexivity].
    - intros i s _ [Hs Hi]. rewrite step_eq. cbv zeta. cbn [fst snd iblk]. split; [|exact Hi].
      assert (G : P (if ival (snd s) i =? ival c i then fst s else growAll i (fst s))) by (destruct (_ =? _); [exact Hs|apply growAll_P; assumption]).
      destruct (0 <? ival c i); [apply cpAll_P; [apply Pc|exact G]|exact G]. }
  destruct K as [[K1 K2] K3]. split; [exact K1|]. split; [exact K3|exact K2].
Qed.
End IntoFrac.

(** every member, when the two states do not have the same number, at least
    two, of liquids, and the records of fractionation are both there *)
Theorem C37_overwrite_same_partial : forall t o n q, wf t o -> wf t n ->
  nLiq o <> nLiq n \/ nLiq o <= 1 -> sameContent t o (copyInto t o n q).
Proof.
  intros t o n q Wo Wn Hl. unfold copyInto. cbv zeta.
  constructor; cbn; try reflexivity; try (intros j Hj; cbn; rewrite upto_lt by assumption; reflexivity).
  - intros i Hi. apply intoLiq_col; [apply Wn|exact Hi|exact Hl].
  - intros i Hi. apply intoLiq_col; [apply Wn|exact Hi|exact Hl].
  - intros i j Hi Hj. destruct (intoSolids_spec t o (sol o) (sol n) (wf_sol t o Wo) i j Hi Hj) as [Sa Sb].
    destruct (intoSolids_spec t o (solD o) (solD n) (wf_sol t o Wo) i j Hi Hj) as [Da Db].
    split; [exact Sa|]. split; [exact Da|]. intros H1 k Hk. split; [apply Sb|apply Db]; assumption.
  - intros Hf ca fa Ea Eb. unfold intoFrac. rewrite Hf, Ea, Eb. destruct (wf_frac t o Wo ca fa Ea Eb) as [Cc Fi].
    set (zz := match nFrac n with Some c => match frac n with Some f => (f, c) | None => (OFam (q + nLiq o + nLiq o) (fun _ => None), c) end
                                | None => (OFam (q + nLiq o + nLiq o) (fun _ => None), IArr (q + nLiq o + nLiq o + 1) (fun _ => 0)) end).
    assert (Fz : filled t (snd zz) (fst zz)).
    { unfold zz. destruct (nFrac n) as [cn|] eqn:E1; [|intros i _ H; cbn in H; lia].
      destruct (frac n) as [fn|] eqn:E2; [apply (wf_frac t n Wn cn fn E1 E2)|]. apply (wf_both t n Wn) in E2. congruence. }
    destruct (intoFrac_loop t (q + nLiq o + nLiq o) ca fa Fi zz Fz) as [La Lb].
    eexists _, _. split; [reflexivity|]. split; [reflexivity|]. split; [exact La|].
    assert (Ag : forall g i j, fagreed fa i j g -> ofamVal fa i j = ofamVal g i j).
    { intros g i j [d [E V]]. rewrite V. unfold ofamVal. rewrite E. reflexivity. }
    intros i j Hi Hj. destruct (Lb i j Hi Hj) as [Xa Xb]. split; [apply Ag, Xa|]. intros H1 k Hk. apply Ag, Xb; assumption.
  - intros Hf x Ex. rewrite Hf, Ex. eexists. split; [reflexivity|]. intros j Hj. cbn. rewrite upto_lt by assumption. reflexivity.
  - intros Ha ca fa Ea Eb. rewrite Ha. match goal with |- context [newAssim ?m (nDspAs o) (dspAs o) ?p] => destruct (newAssim_spec m (nDspAs o) (dspAs o) p) as [g [d [E [_ [_ [_ G]]]]]] end.
    rewrite E. cbn [fst snd]. exists d, g. split; [reflexivity|]. split; [reflexivity|]. apply (G ca fa Ea Eb).
  - intros Ha ca fa Ea Eb. rewrite Ha. match goal with |- context [newAssim ?m (nAs o) (asC o) ?p] => destruct (newAssim_spec m (nAs o) (asC o) p) as [g [d [E [_ [_ [_ G]]]]]] end.
    rewrite E. cbn [fst snd]. exists d, g. split; [reflexivity|]. split; [reflexivity|]. apply (G ca fa Ea Eb).
Qed.
(** the same as a property of its own (C108) *)
Theorem C108_overwrite_same : forall t o n q, wf t o -> wf t n ->
  nLiq o <> nLiq n \/ nLiq o <= 1 -> sameContent t o (copyInto t o n q).
Proof. exact C37_overwrite_same_partial. Qed.

(** The blocks of the overwritten state are blocks it had before or new ones,
    so overwriting never makes two states share memory. *)
Lemma ofamBlk_cases n f g q : (forall x, f = Some x -> (exists y, g = Some y /\ ol1 x = ol1 y \/ q <= ol1 x) /\
     forall k a, ocol x k = Some a -> (exists y a', g = Some y /\ ocol y k = Some a' /\ blk a = blk a') \/ q <= blk a) ->
  forall b, In b (ofamBlk n f) -> In b (ofamBlk n g) \/ q <= b.
Proof.
  intros H b. destruct f as [x|]; [|intros []]. destruct (H x eq_refl) as [[y H1] H2]. intros [<-|I].
  - destruct H1 as [[-> ->]|H1]; [left; left; reflexivity|right; exact H1].
  - apply in_flat_map in I. destruct I as [k [Ik I]]. destruct (ocol x k) as [a|] eqn:E; [|destruct I]. destruct I as [<-|[]].
    destruct (H2 k a E) as [[y' [a' [Ey [Ea Eb]]]]|G]; [left|right; exact G]. rewrite Ey, Eb. right. apply in_flat_map. exists k. split; [exact Ik|]. rewrite Ea. left. reflexivity.
Qed.
Lemma famBlk_cases m n f g q : l1 f = l1 g -> (forall k, k < m -> (k < n /\ blk (col f k) = blk (col g k)) \/ q <= blk (col f k)) ->
  forall b, In b (famBlk m f) -> In b (famBlk n g) \/ q <= b.
Proof.
  intros H1 H2 b [<-|I]; [left; left; symmetry; exact H1|]. apply in_map_iff in I. destruct I as [k [<- I]]. apply in_seq in I.
  destruct (H2 k ltac:(lia)) as [[Hk ->]|G]; [left; right; apply in_map_iff; exists k; split; [reflexivity|apply in_seq; lia]|right; exact G].
Qed.
Theorem C37_overwrite_independent : forall t o n q, wf t o -> wf t n ->
  forall b, In b (blocks t (copyInto t o n q)) -> In b (blocks t n) \/ q <= b.
Proof.
  intros t o n q Wo Wn b. unfold copyInto. cbv zeta.
  set (q2 := q + nLiq o + nLiq o). set (q3 := q2 + 2 + npc t). set (q4 := q3 + 1). set (q5 := q4 + 2 + (npc t + nc t)).
  assert (Q : q <= q2 /\ q <= q3 /\ q <= q4 /\ q <= q5) by (unfold q5, q4, q3, q2; lia).
  destruct Q as [Q2 [Q3 [Q4 Q5]]]. clearbody q2 q3 q4 q5.
  assert (Fr : forall b, In b (ofamBlk (npc t) (fst (intoFrac t o n q2)) ++ oiarrBlk (snd (intoFrac t o n q2))) ->
                In b (ofamBlk (npc t) (frac n) ++ oiarrBlk (nFrac n)) \/ q <= b).
  { clear b. intros b. unfold intoFrac. destruct (fSol o || fFlu o).
    - set (zz := match nFrac n with Some c => match frac n with Some f => (f, c) | None => (OFam q2 (fun _ => None), c) end
                                | None => (OFam q2 (fun _ => None), IArr (q2 + 1) (fun _ => 0)) end).
      assert (Z : forall g c, ol1 g = ol1 (fst zz) -> iblk c = iblk (snd zz) ->
                  (forall k a, ocol g k = Some a -> (exists a', ocol (fst zz) k = Some a' /\ blk a = blk a') \/ q2 <= blk a) ->
                  In b (ofamBlk (npc t) (Some g) ++ oiarrBlk (Some c)) -> In b (ofamBlk (npc t) (frac n) ++ oiarrBlk (nFrac n)) \/ q <= b).
      { intros g c E1 E2 E3 I. apply in_app_or in I. destruct I as [I|I].
        - destruct (ofamBlk_cases (npc t) (Some g) (frac n) q) with (b := b) as [J|J]; [|exact I|left; apply in_or_app; left; exact J|right; exact J].
          intros x Ex. injection Ex as <-. split.
          + unfold zz in E1. destruct (nFrac n) as [c'|] eqn:N1.
            * destruct (frac n) as [f'|] eqn:N2; [exists f'; left; split; [reflexivity|exact E1]|]. exists g. right. cbn in E1. lia.
            * exists g. right. cbn in E1. lia.
          + intros k a Ea. destruct (E3 k a Ea) as [[a' [Ea' Eb]]|G]; [|right; lia]. left.
            unfold zz in Ea'. destruct (nFrac n) as [c'|]; [|discriminate]. destruct (frac n) as [f'|]; [|discriminate]. exists f', a'. repeat split; assumption.
        - destruct I as [<-|[]]. unfold zz in E2. destruct (nFrac n) as [c'|] eqn:N1.
          + left. apply in_or_app. right. left. rewrite E2. destruct (frac n); reflexivity.
          + right. cbn in E2. lia. }
      destruct (nFrac o) as [c|]; [destruct (frac o) as [f|]|].
      + destruct (intoFrac_blk t q2 c f zz) as [B1 [B2 B3]]. apply Z; assumption.
      + apply Z; [reflexivity|reflexivity|]. intros k a E. left. exists a. split; [exact E|reflexivity].
      + apply Z; [reflexivity|reflexivity|]. intros k a E. left. exists a. split; [exact E|reflexivity].
    - destruct (_ && _ && _); [intros []|intros I; left; exact I]. }
  assert (As : forall m q' c f c' f' (aa ab : bool), q <= q' ->
             let r := if aa then newAssim m c f q' else if ab then (None, None) else (f', c') in
             forall b, In b (ofamBlk m (fst r) ++ oiarrBlk (snd r)) -> In b (ofamBlk m f' ++ oiarrBlk c') \/ q <= b).
  { clear b. intros m q' c f c' f' aa ab Hq r b. unfold r. destruct aa.
    - destruct (newAssim_spec m c f q') as [g [d [E [G1 [G2 [G3 _]]]]]]. rewrite E. cbn [fst snd]. intros I. right. apply in_app_or in I. destruct I as [I|I].
      + revert I. apply ofamBlk_ge. intros x Ex. injection Ex as <-. split; [lia|]. intros k a Ea. rewrite (G3 k a Ea). lia.
      + destruct I as [<-|[]]. lia.
    - destruct ab; [intros []|intros I; left; exact I]. }
  unfold blocks. cbn [bulk dspBulk nSol inc cyl liq liqD nLiq sol solD frac nFrac fracL dspAs nDspAs asC nAs ySol yLiq].
  rewrite !app_assoc. intros I.
  (* split the two lists into the same pieces *)
  rewrite <- !app_assoc in I |- *.
  assert (D : forall x (l m l' m' : list nat), (In x l -> In x l' \/ q <= x) -> (In x m -> In x m' \/ q <= x) -> In x (l ++ m) -> In x (l' ++ m') \/ q <= x).
  { intros x l m l' m' H1 H2 J. apply in_app_or in J. destruct J as [J|J]; [apply H1 in J|apply H2 in J]; (destruct J as [J|J]; [left; apply in_or_app; tauto|right; exact J]). }
  revert I. apply D; [intros I; left; exact I|].
  apply D. { apply famBlk_cases; [unfold intoLiq; destruct (_ =? _); reflexivity|]. intros k Hk. apply intoLiq_blk. exact Hk. }
  apply D. { apply famBlk_cases; [unfold intoLiq; destruct (_ =? _); reflexivity|]. intros k Hk. destruct (intoLiq_blk t (nLiq o) (nLiq n) (liqD o) (liqD n) (q + nLiq o) k Hk) as [?|G]; [left; assumption|right; lia]. }
  apply D. { destruct (intoSolids_blk t o (sol o) (sol n)) as [S1 S2]. apply famBlk_cases; [exact S1|]. intros k Hk. left. split; [exact Hk|apply S2]. }
  apply D. { destruct (intoSolids_blk t o (solD o) (solD n)) as [S1 S2]. apply famBlk_cases; [exact S1|]. intros k Hk. left. split; [exact Hk|apply S2]. }
  rewrite (app_assoc (ofamBlk (npc t) _) (oiarrBlk _)). rewrite (app_assoc (ofamBlk (npc t) (frac n)) (oiarrBlk _)).
  apply D; [apply Fr|]. apply D.
  { destruct (fLiq o); [|destruct (_ && _); [intros []|intros I; left; exact I]]. intros [<-|[]]. cbn [blk copyArr]. destruct (fracL n) as [d|]; [left; left; reflexivity|right; cbn; lia]. }
  rewrite (app_assoc (ofamBlk (npc t + nc t) _) (oiarrBlk _)). rewrite (app_assoc (ofamBlk (npc t + nc t) (dspAs n)) (oiarrBlk _)).
  apply D; [apply As; assumption|].
  rewrite (app_assoc (ofamBlk (npc t + nlc t) _) (oiarrBlk _)). rewrite (app_assoc (ofamBlk (npc t + nlc t) (asC n)) (oiarrBlk _)).
  apply D; [apply As; assumption|]. intros I; left; exact I.
Qed.

(** ** Examples: a pure phase (entry 0) and a solution of two components (entry
    1, components 2 and 3), both present, the solution also among the
    fractionated material *)
Definition tEx : tables := Tb 2 2 4 (fun i => i <? 2) (fun i => match i with O => 1 | S O => 2 | _ => 0 end).
Definition aEx (b : nat) (x : R) : arr := Arr b (fun _ => x).
Definition sEx (liquids base : nat) (x : R) (fr : bool) : state :=
  St (fun _ => x) (aEx base x) (aEx (base + 1) x)
     (Fam (base + 2) (fun i => aEx (base + 20 + i) x)) (Fam (base + 3) (fun i => aEx (base + 30 + i) x)) liquids
     (Fam (base + 5) (fun i => aEx (base + 40 + i) x)) (Fam (base + 6) (fun i => aEx (base + 50 + i) x))
     (IArr (base + 4) (fun i => match i with O => 1 | S O => 2 | _ => 0 end)) (IArr (base + 7) (fun _ => 1)) (IArr (base + 8) (fun _ => 0))
     fr false false
     (Some (OFam (base + 9) (fun i => if i <? 4 then Some (aEx (base + 60 + i) x) else None)))
     (Some (IArr (base + 10) (fun i => if i =? 1 then 1 else 0))) None
     false None None None None None None false.
Lemma sEx_wf l b x fr : 1 <= l -> wf tEx (sEx l b x fr).
Proof.
  intros Hl. constructor; cbn.
  - exact Hl.
  - intros [|[|[|[|i]]]] Hi Hn; cbn in *; try lia; (split; [reflexivity|]); intros H1; try lia. split; [lia|]. intros [|[|k]] Hk; try lia; reflexivity.
  - split; discriminate.
  - intros c f E1 E2. injection E1 as <-. injection E2 as <-. split.
    + intros [|[|i]] Hi Hn; cbn in *; try lia; (split; [reflexivity|]); intros H1; try lia. split; [lia|]. intros [|[|k]] Hk; try lia; reflexivity.
    + intros [|[|i]] Hi Hn; cbn in *; try lia. split; [discriminate|]. intros _ [|[|k]] Hk; try lia; discriminate.
Qed.
Theorem C37_new_copy_case : wf tEx (sEx 2 0 5 true) /\ tidy (sEx 2 0 5 true) /\
  val (col (sol (copyNew tEx (sEx 2 0 5 true) 100)) 3) 1 = 5%R /\ val (col (liq (copyNew tEx (sEx 2 0 5 true) 100)) 1) 1 = 5%R.
Proof. split; [apply sEx_wf; lia|]. split; [repeat split; try discriminate; intros; discriminate|]. split; reflexivity. Qed.
Theorem C37_overwrite_case : wf tEx (sEx 2 0 5 true) /\ wf tEx (sEx 1 100 7 true) /\ nLiq (sEx 2 0 5 true) <> nLiq (sEx 1 100 7 true) /\
  val (col (liq (copyInto tEx (sEx 2 0 5 true) (sEx 1 100 7 true) 200)) 1) 1 = 5%R /\
  val (col (sol (copyInto tEx (sEx 2 0 5 true) (sEx 1 100 7 true) 200)) 2) 1 = 5%R.
Proof. split; [apply sEx_wf; lia|]. split; [apply sEx_wf; lia|]. split; [cbn; lia|]. split; reflexivity. Qed.

(** ** What goes wrong otherwise *)
(** With the same number of liquids in both states, only the first is copied:
    the others keep what the overwritten state had. So restoring the best
    iteration (silmin.c 1178) with two liquids yields a system with a
    different total composition from the one that was saved. *)
Theorem C37_refuted_second_liquid :
  (forall t o n q i, nLiq o = nLiq n -> 1 <= i -> col (liq (copyInto t o n q)) i = col (liq n) i) /\
  (exists t o n q, wf t o /\ wf t n /\ nLiq o = 2 /\ nLiq n = 2 /\ ~ sameContent t o (copyInto t o n q) /\
     let total s := fun j => (val (col (liq s) 0) j + val (col (liq s) 1) j)%R in
     exists j, j < nlc t /\ total (copyInto t o n q) j <> total o j).
Proof.
  split.
  - intros t o n q i E Hi. cbn [copyInto liq]. unfold intoLiq. rewrite E, Nat.eqb_refl. rewrite setCol_col. destruct (Nat.eqb_spec i 0); [lia|reflexivity].
  - exists tEx, (sEx 2 0 5 true), (sEx 2 100 7 true), 200. split; [apply sEx_wf; lia|]. split; [apply sEx_wf; lia|]. split; [reflexivity|]. split; [reflexivity|]. split.
    + intros S. pose proof (same_liq _ _ _ S 1 ltac:(cbn; lia) 0 ltac:(cbn; lia)) as E. cbn in E. lra.
    + exists 0. split; [cbn; lia|]. cbn. lra.
Qed.
(** A new copy made while fractionation is switched off shares the records of
    what has been fractionated with the original; silmin.c 1129-1136 switches
    it off just while it saves the best iteration. *)
Theorem C37_refuted_new_copy_shares :
  (forall t o q, fSol o || fFlu o = false -> frac (copyNew t o q) = frac o /\ nFrac (copyNew t o q) = nFrac o) /\
  (exists t o q b, wf t o /\ (forall x, In x (blocks t o) -> x < q) /\ In b (blocks t o) /\ In b (blocks t (copyNew t o q))).
Proof.
  split.
  - intros t o q H. cbn [copyNew frac nFrac]. unfold newFrac. rewrite H. split; reflexivity.
  - exists tEx, (sEx 2 0 5 false), 100, 60. split; [apply sEx_wf; lia|]. split; [|split].
    + intros x I. apply (proj1 (Forall_forall (fun x => x < 100) _)) with (x := x) in I; [exact I|]. cbn. repeat constructor.
    + cbn. tauto.
    + cbn. tauto.
Qed.
