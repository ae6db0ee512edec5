From Coq Require Import Ascii String List Bool Arith ZArith QArith Qcanon Lia.
From Verif Require Import Str Num FormulaModel FormulaSpec.
Import ListNotations.
Local Open Scope nat_scope.
Local Open Scope list_scope.

Ltac allchars c := destruct c as [[] [] [] [] [] [] [] []]; try reflexivity; try discriminate.

Section P.
Variable elems : list (str * Qc).
Variable atof : str -> Qc.
Notation step1 := (step1 elems atof).
Notation loop := (loop elems atof).
Notation complete := (complete elems).
Notation flush := (flush elems atof).
Notation lookup := (lookup elems).

Lemma split_close_len l : forall a b, split_close l = Some (a, b) -> length l = S (length a + length b).
Proof.
  induction l as [|c l IH]; intros a b H; [discriminate|]. cbn [split_close] in H.
  destruct (is_close c); [injection H as <- <-; reflexivity|].
  destruct (split_close l) as [[x y]|]; [|discriminate]. injection H as <- <-. simpl. rewrite (IH _ _ eq_refl). lia.
Qed.
Lemma span_mult_app l : l = fst (span_mult l) ++ snd (span_mult l).
Proof.
  induction l as [|c l IH]; [reflexivity|]. cbn [span_mult]. destruct (isupper c || is_open c); [reflexivity|].
  destruct (span_mult l) as [a b]. cbn in *. now rewrite IH at 1.
Qed.

Lemma step1_len s c rest s' r : step1 s c rest = SGo s' r -> length r <= length rest.
Proof.
  unfold FormulaModel.step1. intro H.
  destruct (isalpha c || isspace c || is_open c || is_close c).
  - destruct (complete s c) as [s1|]; [|discriminate].
    destruct (is_open c).
    + destruct (split_close rest) as [[a b]|] eqn:E; [|discriminate].
      apply split_close_len in E. pose proof (span_mult_app b) as Hb.
      destruct (span_mult b) as [m b']. cbn [fst snd] in Hb.
      destruct m as [|x m].
      * injection H as _ <-. lia.
      * injection H as _ <-. subst b. simpl in E. rewrite !app_length in *. simpl in *. lia.
    + destruct (is_close c); [injection H as _ <-; lia|].
      destruct (length _ <? 2); [injection H as _ <-; lia|discriminate].
  - destruct (numch c); [|discriminate]. destruct (num s).
    + destruct (FormulaModel.lookup elems 1 (sym s)); [|discriminate]. injection H as _ <-. lia.
    + injection H as _ <-. lia.
Qed.

Lemma loop_fuel f1 : forall f2 s r, length r < f1 -> length r < f2 -> loop f1 s r = loop f2 s r.
Proof.
  induction f1 as [|f1 IH]; intros f2 s r H1 H2; [lia|]. destruct f2 as [|f2]; [lia|].
  cbn [FormulaModel.loop]. destruct r as [|c r]; [reflexivity|].
  destruct (step1 s c r) as [g| |s' r'] eqn:E; try reflexivity.
  apply step1_len in E. simpl in *. apply IH; lia.
Qed.

Definition run (s : st) (r : str) : res := loop (S (length r)) s r.
Lemma run_cons s c r : run s (c :: r) =
  match step1 s c r with SFail g => Fail g | SUB => UB | SGo s' r' => run s' r' end.
Proof.
  unfold run.
  change (loop (S (length (c :: r))) s (c :: r)) with
    (match step1 s c r with SFail g => Fail g | SUB => UB | SGo s' r' => loop (length (c :: r)) s' r' end).
  destruct (step1 s c r) as [g| |s' r'] eqn:E; try reflexivity.
  apply step1_len in E. apply loop_fuel; simpl; lia.
Qed.
Lemma run_nil s : run s [] =
  match step1 s " "%char [] with SFail g => Fail g | SUB => UB | SGo s' _ => Done (mw s') (stoich s') end.
Proof. reflexivity. Qed.

Lemma run_not_oof n : forall s r, length r < n -> run s r <> OutOfFuel.
Proof.
  induction n as [|n IH]; intros s r H; [lia|]. destruct r as [|c r].
  - rewrite run_nil. destruct (step1 s " "%char []); discriminate.
  - rewrite run_cons. destruct (step1 s c r) as [| |s' r'] eqn:E; try discriminate.
    apply step1_len in E. simpl in H. apply IH. lia.
Qed.

(** ---- settling ---- *)
Definition clean (k : st) : Prop := sym k = [] /\ num k = [] /\ j k = 0.
Definition settles (s k : st) : Prop :=
  exists s1, complete s " "%char = Some s1 /\ flush s1 = k /\ clean k.

Lemma complete_nl s c : islower c = false -> complete s c = complete s " "%char.
Proof. intro H. unfold FormulaModel.complete. rewrite H. reflexivity. Qed.
Lemma clean_complete k c : clean k -> complete k c = Some k.
Proof. intros (A & _). unfold FormulaModel.complete. rewrite A. now rewrite andb_false_r. Qed.
Lemma clean_flush k : clean k -> flush k = k.
Proof. intros (_ & _ & C). unfold FormulaModel.flush. rewrite C. reflexivity. Qed.

Lemma step1_settles s k c r : settles s k -> islower c = false ->
  isalpha c || isspace c || is_open c || is_close c = true ->
  step1 s c r = step1 k c r.
Proof.
  intros (s1 & A & B & C) Hl Hd. unfold FormulaModel.step1. rewrite Hd.
  rewrite (complete_nl s c Hl), A, (clean_complete k c C). rewrite B, (clean_flush k C). reflexivity.
Qed.

Lemma clean_settles k : clean k -> settles k k.
Proof. intro H. exists k. rewrite clean_complete by exact H. now rewrite clean_flush. Qed.

(** delimiter-headed rest *)
Definition headed (r : str) : Prop :=
  match r with [] => True | c :: _ => isupper c = true \/ is_open c = true \/ is_close c = true end.
Lemma headed_char c : isupper c = true \/ is_open c = true \/ is_close c = true ->
  islower c = false /\ isalpha c || isspace c || is_open c || is_close c = true.
Proof. intros [H|[H|H]]; split; revert H; allchars c. Qed.

Lemma run_settles s k r : settles s k -> headed r -> run s r = run k r.
Proof.
  intros H Hr. destruct r as [|c r].
  - rewrite !run_nil. rewrite (step1_settles s k); auto.
  - rewrite !run_cons. destruct (headed_char c Hr). rewrite (step1_settles s k); auto.
Qed.

Lemma lookup_some s : forall l i, In s (map fst l) -> exists k, FormulaModel.lookup l i s = Some k.
Proof.
  induction l as [|[x w] l IH]; intros i H; [contradiction|]. cbn [FormulaModel.lookup].
  destruct (streqb s x) eqn:E; [eauto|]. apply IH. destruct H as [H|H]; [|exact H].
  cbn in H. subst x. now rewrite streqb_refl in E.
Qed.
Lemma lookup_in s : forall l i k, FormulaModel.lookup l i s = Some k ->
  In s (map fst l) /\ i <= k < i + length l /\ exists w, nth_error l (k - i) = Some (s, w).
Proof.
  induction l as [|[x w] l IH]; intros i k H; [discriminate|]. cbn [FormulaModel.lookup] in H.
  destruct (streqb s x) eqn:E.
  - injection H as <-. apply streqb_eq in E. subst x. simpl. rewrite Nat.sub_diag. repeat split; auto; try lia. eexists; reflexivity.
  - apply IH in H as (A & B & w' & C). simpl. repeat split; auto; try lia.
    exists w'. replace (k - i) with (S (k - S i)) by lia. exact C.
Qed.
Lemma lookup_unique s l : NoDup (map fst l) -> forall i k w, nth_error l k = Some (s, w) ->
  FormulaModel.lookup l i s = Some (i + k).
Proof.
  induction l as [|[x w0] l IH]; intros ND i k w H; [destruct k; discriminate|].
  cbn [FormulaModel.lookup]. inversion ND as [|? ? Hn ND']; subst. destruct k as [|k].
  - cbn in H. injection H as -> ->. rewrite streqb_refl. now rewrite Nat.add_0_r.
  - cbn in H. destruct (streqb s x) eqn:E.
    + apply streqb_eq in E. subst x. exfalso. apply Hn. apply nth_error_In in H.
      apply (in_map fst) in H. exact H.
    + rewrite (IH ND' (S i) k w H). f_equal. lia.
Qed.

(** state after counting amount a of element k *)
Definition counted (s : st) (k : nat) (a : Qc) : st :=
  mkSt [] [] 0 (mult s) (mw s + a * weight elems k)%Qc (add_at (stoich s) k a).

(** reading a numeral *)
Lemma read_num s k n t r : num s = n -> n <> [] -> forallb numch t = true -> j s = k ->
  exists s', run s (t ++ r) = run s' r /\ sym s' = sym s /\ num s' = n ++ t /\ j s' = k /\
    mult s' = mult s /\ mw s' = mw s /\ stoich s' = stoich s.
Proof.
  revert s n. induction t as [|c t IH]; intros s n Hn Hne Ht Hj.
  - exists s. rewrite app_nil_r. auto 10.
  - cbn [forallb] in Ht. apply andb_true_iff in Ht as [Hc Ht]. cbn [app]. rewrite run_cons.
    assert (E : step1 s c (t ++ r) = SGo (mkSt (sym s) (n ++ [c]) (j s) (mult s) (mw s) (stoich s)) (t ++ r)).
    { unfold FormulaModel.step1.
      assert (D : isalpha c || isspace c || is_open c || is_close c = false) by (revert Hc; clear; allchars c).
      rewrite D, Hc, Hn. destruct n; [congruence|reflexivity]. }
    rewrite E.
    destruct (IH (mkSt (sym s) (n ++ [c]) (j s) (mult s) (mw s) (stoich s)) (n ++ [c])) as (s' & A & B); auto.
    + destruct n; discriminate.
    + exists s'. split; [exact A|]. cbn in B. rewrite <- app_assoc in B. exact B.
Qed.

(** reading a symbol from a clean state *)
Lemma read_sym s k sy r : settles s k -> sym_shape sy = true ->
  (r = [] \/ exists c r', r = c :: r' /\ islower c = false) ->
  run s (sy ++ r) = run (mkSt sy [] 0 (mult k) (mw k) (stoich k)) r.
Proof.
  intros Hs Hsh Hr. destruct sy as [|a [|b [|? ?]]]; try discriminate.
  - cbn [app]. rewrite run_cons. cbn in Hsh. change (isupper a = true) in Hsh.
    destruct (headed_char a (or_introl Hsh)) as [L D]. rewrite (step1_settles s k a r Hs L D).
    destruct Hs as (_ & _ & _ & C). unfold FormulaModel.step1. rewrite D.
    rewrite (clean_complete k a C), (clean_flush k C).
    assert (O : is_open a = false /\ is_close a = false) by (split; revert Hsh; clear; allchars a).
    destruct O as [-> ->]. destruct C as (C1 & C2 & C3). rewrite C1, C2, C3. reflexivity.
  - cbn [app]. rewrite run_cons. cbn in Hsh. apply andb_true_iff in Hsh as [Ha Hb].
    change (isupper a = true) in Ha. change (islower b = true) in Hb.
    destruct (headed_char a (or_introl Ha)) as [L D]. rewrite (step1_settles s k a _ Hs L D).
    destruct Hs as (_ & _ & _ & C). unfold FormulaModel.step1. rewrite D.
    rewrite (clean_complete k a C), (clean_flush k C).
    assert (O : is_open a = false /\ is_close a = false) by (split; revert Ha; clear; allchars a).
    destruct O as [-> ->]. destruct C as (C1 & C2 & C3). rewrite C1, C2, C3. cbn [length Nat.ltb Nat.leb app].
    rewrite run_cons. unfold FormulaModel.step1.
    assert (D2 : isalpha b || isspace b || is_open b || is_close b = true) by (revert Hb; clear; allchars b).
    assert (O2 : is_open b = false /\ is_close b = false) by (split; revert Hb; clear; allchars b).
    destruct O2 as [O3 O4]. rewrite D2. unfold FormulaModel.complete. rewrite Hb. cbn [negb andb].
    unfold FormulaModel.flush. cbn [j]. change (0 <? 0) with false. cbn iota.
    rewrite O3, O4. cbn. reflexivity.
Qed.

Lemma headed_low r : headed r -> r = [] \/ exists c r', r = c :: r' /\ islower c = false.
Proof.
  destruct r as [|c r]; [auto|]. intro H. right. exists c, r. split; [reflexivity|].
  now destruct (headed_char c H).
Qed.

Lemma read_el s k e r : settles s k -> wf_el elems e -> headed r ->
  exists s' i, lookup 1 (fst e) = Some i /\ run s (render_el e ++ r) = run s' r /\
     settles s' (counted k i (value atof (snd e) * mult k)%Qc).
Proof.
  intros Hs (Hin & Hsh & Hn) Hr. destruct e as [sy o]. cbn [fst snd] in *.
  destruct (lookup_some sy elems 1 Hin) as [i Hi]. unfold render_el. cbn [fst snd].
  destruct o as [t|]; cbn [text_of value].
  - destruct t as [|c t]; [discriminate|]. cbn [numeral] in Hn.
    rewrite <- app_assoc. cbn [forallb] in Hn. apply andb_true_iff in Hn as [Hc Ht].
    assert (Hcl : islower c = false) by (revert Hc; clear; allchars c).
    rewrite (read_sym s k); auto; [|right; eexists _, _; split; [reflexivity|exact Hcl]].
    cbn [app]. rewrite run_cons.
    set (k1 := mkSt sy [] 0 (mult k) (mw k) (stoich k)).
    assert (E : step1 k1 c (t ++ r) = SGo (mkSt [] [c] i (mult k) (mw k) (stoich k)) (t ++ r)).
    { unfold FormulaModel.step1.
      assert (D : isalpha c || isspace c || is_open c || is_close c = false) by (revert Hc; clear; allchars c).
      rewrite D, Hc. cbn [num k1 sym]. rewrite Hi. reflexivity. }
    rewrite E.
    destruct (read_num (mkSt [] [c] i (mult k) (mw k) (stoich k)) i [c] t r) as (s' & A & B1 & B2 & B3 & B4 & B5 & B6); auto.
    { discriminate. }
    exists s', i. split; [exact Hi|]. split; [exact A|].
    exists s'. split; [|split].
    + unfold FormulaModel.complete. rewrite B1. cbn. reflexivity.
    + unfold FormulaModel.flush. rewrite B3, B2, B4, B5, B6, B1. cbn [sym mult mw stoich app].
      apply lookup_in in Hi. destruct (Nat.ltb_spec 0 i); [|lia]. reflexivity.
    + repeat split.
  - rewrite app_nil_r. exists (mkSt sy [] 0 (mult k) (mw k) (stoich k)), i. split; [exact Hi|]. split.
    + apply read_sym; auto. now apply headed_low.
    + exists (mkSt [] [] i (mult k) (mw k) (stoich k)). split; [|split].
      * unfold FormulaModel.complete. cbn [sym num]. destruct sy; [discriminate|]. cbn [negb islower andb].
        change (negb (islower " "%char) && true) with true. cbn iota. rewrite Hi. reflexivity.
      * unfold FormulaModel.flush. cbn [j num mult mw sym stoich].
        apply lookup_in in Hi. destruct (Nat.ltb_spec 0 i); [|lia]. unfold counted.
        replace (Q2Qc 1 * mult k)%Qc with (mult k) by (change (Q2Qc 1) with 1%Qc; ring). reflexivity.
      * repeat split.
Qed.

Lemma render_els_headed es r : Forall (wf_el elems) es -> headed r -> headed (render_els es ++ r).
Proof.
  intros H Hr. destruct es as [|e es]; [exact Hr|]. inversion H as [|? ? (A & B & C)]; subst.
  cbn [render_els flat_map]. unfold render_el. destruct (fst e) as [|a l]; [discriminate|].
  cbn. left. destruct l as [|b [|]]; cbn in B; try discriminate; try exact B.
  apply andb_true_iff in B. apply B.
Qed.

(** amounts: pointwise bookkeeping, for the symbol table *)
Definition sym_at (i : nat) (s : str) : Prop := exists w, nth_error elems (i - 1) = Some (s, w) /\ 1 <= i.
Hypothesis ND : NoDup (map fst elems).

Lemma sym_at_lookup i s sy k : sym_at i s -> lookup 1 sy = Some k -> (i =? k) = streqb sy s.
Proof.
  intros (w & Hw & Hi) Hk. apply eq_true_iff_eq. rewrite Nat.eqb_eq, streqb_eq. split.
  - intros ->. destruct (lookup_in _ _ _ _ Hk) as (_ & _ & w' & H). congruence.
  - intros ->. pose proof (lookup_unique s elems ND 1 (i - 1) w Hw). rewrite Hk in H. injection H as ->. lia.
Qed.

(** [agree k k' f]: from k to k' the stoichiometry of every known symbol s grew by f s, same multiplier, clean *)
Definition grew (k k' : st) (f : str -> Qc) : Prop :=
  (forall i s, sym_at i s -> stoich k' i = (stoich k i + f s)%Qc) /\
  (forall i, (forall s, ~ sym_at i s) -> stoich k' i = stoich k i).

Lemma grew_counted k (e : elem) i a : lookup 1 (fst e) = Some i ->
  grew k (counted k i a) (fun s => if streqb (fst e) s then a else Q2Qc 0).
Proof.
  intro Hi. split.
  - intros q s Hq. cbn [counted stoich]. unfold add_at. rewrite (sym_at_lookup q s _ _ Hq Hi).
    destruct (streqb (fst e) s); [reflexivity|]. change (Q2Qc 0) with 0%Qc. ring.
  - intros q Hq. cbn [counted stoich]. unfold add_at. destruct (Nat.eqb_spec q i) as [->|]; [|reflexivity].
    exfalso. destruct (lookup_in _ _ _ _ Hi) as (_ & B & w & C). apply (Hq (fst e)). exists w. split; [exact C|lia].
Qed.
Lemma grew_trans a b c f g : grew a b f -> grew b c g -> grew a c (fun s => (f s + g s)%Qc).
Proof.
  intros [A1 A2] [B1 B2]. split.
  - intros i s H. rewrite (B1 i s H), (A1 i s H). ring.
  - intros i H. rewrite (B2 i H). now apply A2.
Qed.
Lemma grew_ext a b f g : (forall s, f s = g s) -> grew a b f -> grew a b g.
Proof. intros E [A B]. split; [|exact B]. intros. rewrite (A i s); [|assumption]. now rewrite E. Qed.
Lemma grew_refl a b : stoich a = stoich b -> grew a b (fun _ => Q2Qc 0).
Proof. intro E. split; intros; rewrite E; [change (Q2Qc 0) with 0%Qc; ring|reflexivity]. Qed.

Lemma read_els es : forall s k r, settles s k -> Forall (wf_el elems) es -> headed r ->
  exists s' k', run s (render_els es ++ r) = run s' r /\ settles s' k' /\ mult k' = mult k /\
    grew k k' (fun x => (amount_els atof x es * mult k)%Qc).
Proof.
  induction es as [|e es IH]; intros s k r Hs Hw Hr.
  - exists s, k. repeat split; auto; intros; cbn [amount_els fold_right]; change (Q2Qc 0) with 0%Qc; ring.
  - inversion Hw as [|? ? He Hes]; subst. cbn [render_els flat_map]. rewrite <- app_assoc.
    destruct (read_el s k e (render_els es ++ r) Hs He) as (s1 & i & Hi & R & S1).
    { now apply render_els_headed. }
    unfold render_els in R. fold (render_els es) in *. rewrite R.
    destruct (IH s1 _ r S1 Hes Hr) as (s' & k' & R' & S' & M' & G').
    exists s', k'. split; [exact R'|]. split; [exact S'|]. split; [exact M'|].
    eapply grew_ext; [|eapply grew_trans; [exact (grew_counted k e i (value atof (snd e) * mult k)%Qc Hi)|exact G']].
    intro x. cbn [mult counted]. unfold amount_els. cbn [fold_right].
    unfold amount_el at 2.
     generalize (fold_right (fun e0 q => (amount_el atof x e0 + q)%Qc) (Q2Qc 0) es). intro w.
    destruct (streqb (fst e) x); [|change (Q2Qc 0) with 0%Qc]; cbn [mult]; ring.
Qed.

Lemma numch_noclose_els es : Forall (wf_el elems) es -> forallb (fun c => negb (is_close c)) (render_els es) = true.
Proof.
  induction es as [|e es IH]; intro H; [reflexivity|]. inversion H as [|? ? (A & B & C) Hes]; subst.
  cbn [render_els flat_map]. rewrite forallb_app. fold (render_els es). rewrite IH by exact Hes.
  rewrite andb_true_r. unfold render_el. rewrite forallb_app. apply andb_true_iff. split.
  - destruct (fst e) as [|a [|b [|? ?]]]; cbn in B; try discriminate; cbn [forallb].
    + rewrite andb_true_r. revert B; clear; allchars a.
    + apply andb_true_iff in B as [B1 B2]. apply andb_true_iff. split; [revert B1; clear; allchars a|].
      rewrite andb_true_r. revert B2; clear; allchars b.
  - destruct (snd e) as [t|]; [|reflexivity]. cbn [text_of]. destruct t as [|c t]; [reflexivity|].
    cbn [numeral] in C. revert C. generalize (c :: t). clear. intros l C. rewrite forallb_forall in *.
    intros x Hx. specialize (C x Hx). revert C; clear; allchars x.
Qed.
Lemma split_close_at a b : forallb (fun c => negb (is_close c)) a = true ->
  split_close (a ++ ")"%char :: b) = Some (a, b).
Proof.
  induction a as [|c a IH]; intro H; [reflexivity|]. cbn [forallb] in H. apply andb_true_iff in H as [H1 H2].
  cbn [app split_close]. apply negb_true_iff in H1. rewrite H1, (IH H2). reflexivity.
Qed.
Definition headed2 (r : str) : Prop := match r with [] => True | c :: _ => isupper c || is_open c = true end.
Lemma headed2_headed r : headed2 r -> headed r.
Proof. destruct r as [|c r]; cbn; [auto|]. intro H. apply orb_true_iff in H. tauto. Qed.
Lemma span_mult_at t r : forallb numch t = true -> headed2 r -> span_mult (t ++ r) = (t, r).
Proof.
  intros Ht Hr. induction t as [|c t IH].
  - destruct r as [|c r]; [reflexivity|]. cbn in *. now rewrite Hr.
  - cbn [forallb] in Ht. apply andb_true_iff in Ht as [Hc Ht]. cbn [app span_mult].
    assert (E : isupper c || is_open c = false) by (revert Hc; clear; allchars c).
    rewrite E, (IH Ht). reflexivity.
Qed.

Lemma read_item it s k r : settles s k -> mult k = 1%Qc -> wf_item elems it -> headed2 r ->
  exists s' k', run s (render_item it ++ r) = run s' r /\ settles s' k' /\ mult k' = 1%Qc /\
    grew k k' (fun x => amount_item atof x it).
Proof.
  intros Hs Hm Hw Hr. destruct it as [e|es m]; cbn [render_item wf_item amount_item] in *.
  - destruct (read_el s k e r Hs Hw (headed2_headed _ Hr)) as (s' & i & Hi & R & S').
    exists s', (counted k i (value atof (snd e) * mult k)%Qc). split; [exact R|]. split; [exact S'|].
    split; [exact Hm|].
    eapply grew_ext; [|exact (grew_counted k e i (value atof (snd e) * mult k)%Qc Hi)]. intro x. cbn beta. unfold amount_el.
    rewrite Hm. destruct (streqb (fst e) x); [ring|reflexivity].
  - destruct Hw as [Hes Hn]. cbn [app]. rewrite run_cons.
    rewrite (step1_settles s k "("%char _ Hs eq_refl eq_refl).
    pose proof Hs as (_ & _ & _ & C). unfold FormulaModel.step1.
    change (isalpha "("%char || isspace "("%char || is_open "("%char || is_close "("%char) with true. cbn iota.
    rewrite (clean_complete k _ C), (clean_flush k C).
    change (is_open "("%char) with true. cbn iota.
    rewrite <- app_assoc. cbn [app].
    rewrite (split_close_at (render_els es)) by now apply numch_noclose_els.
    assert (Hn2 : forallb numch (text_of m) = true).
    { destruct m as [[|c t]|]; cbn in *; auto; discriminate. }
    rewrite (span_mult_at _ r Hn2 Hr).
    assert (exists k1, clean k1 /\ mult k1 = value atof m /\ stoich k1 = stoich k /\
      (match text_of m with
       | [] => SGo k (render_els es ++ ")"%char :: text_of m ++ r)
       | _ => SGo (mkSt (sym k) [] (j k) (atof (text_of m)) (mw k) (stoich k)) (render_els es ++ ")"%char :: r)
       end) = SGo k1 (render_els es ++ ")"%char :: r)) as (k1 & C1 & M1 & T1 & E1).
    { destruct C as (c1 & c2 & c3). destruct m as [[|c t]|]; [discriminate| |].
      - exists (mkSt (sym k) [] (j k) (atof (c :: t)) (mw k) (stoich k)). repeat split; auto.
      - exists k. repeat split; auto. }
    rewrite E1. clear E1.
    destruct (read_els es k1 k1 (")"%char :: r) (clean_settles _ C1) Hes) as (s2 & k2 & R2 & S2 & M2 & G2).
    { cbn. auto. }
    rewrite R2. rewrite run_cons. rewrite (step1_settles s2 k2 ")"%char _ S2 eq_refl eq_refl).
    pose proof S2 as (_ & _ & _ & C2). unfold FormulaModel.step1.
    change (isalpha ")"%char || isspace ")"%char || is_open ")"%char || is_close ")"%char) with true. cbn iota.
    rewrite (clean_complete k2 _ C2), (clean_flush k2 C2).
    change (is_open ")"%char) with false. change (is_close ")"%char) with true. cbn iota.
    set (k3 := mkSt (sym k2) (num k2) (j k2) (Q2Qc 1) (mw k2) (stoich k2)).
    assert (C3 : clean k3) by (destruct C2 as (a & b & c); repeat split; assumption).
    exists k3, k3. split; [reflexivity|]. split; [now apply clean_settles|]. split; [reflexivity|].
    destruct G2 as [G2 G2']. split.
    + intros i x Hx. cbn [k3 stoich]. rewrite (G2 i x Hx), T1, M1. reflexivity.
    + intros i Hx. cbn [k3 stoich]. rewrite (G2' i Hx), T1. reflexivity.
Qed.

Lemma render_headed2 l : Forall (wf_item elems) l -> headed2 (render l).
Proof.
  intro H. destruct l as [|it l]; [exact I|]. inversion H as [|? ? Hi _]; subst.
  destruct it as [e|es m]; cbn [render flat_map render_item]; [|reflexivity].
  destruct Hi as (_ & B & _). unfold render_el. destruct (fst e) as [|a t]; [discriminate|].
  cbn. apply orb_true_iff. left. destruct t as [|b [|]]; cbn in B; try discriminate; try exact B.
  apply andb_true_iff in B. apply B.
Qed.

Lemma read_items l : forall s k, settles s k -> mult k = 1%Qc -> Forall (wf_item elems) l ->
  exists s' k', run s (render l) = run s' [] /\ settles s' k' /\
    grew k k' (fun x => amount atof x l).
Proof.
  induction l as [|it l IH]; intros s k Hs Hm Hw.
  - exists s, k. split; [reflexivity|]. split; [exact Hs|]. now apply grew_refl.
  - inversion Hw as [|? ? Hi Hl]; subst. cbn [render flat_map].
    destruct (read_item it s k (render l) Hs Hm Hi (render_headed2 l Hl)) as (s1 & k1 & R1 & S1 & M1 & G1).
    fold (render l). rewrite R1.
    destruct (IH s1 k1 S1 M1 Hl) as (s' & k' & R' & S' & G').
    exists s', k'. split; [exact R'|]. split; [exact S'|].
    eapply grew_ext; [|exact (grew_trans _ _ _ _ _ G1 G')]. reflexivity.
Qed.

Lemma parse_render l g : l <> [] -> Forall (wf_item elems) l ->
  exists m g', formulaToMwStoich elems atof (render l) g = Done m g' /\
    (forall i s, sym_at i s -> g' i = (g i + amount atof s l)%Qc) /\
    (forall i, (forall s, ~ sym_at i s) -> g' i = g i).
Proof.
  intros Hne Hw. 
  destruct (read_items l (start g) (start g)) as (s' & k' & R & S & G); auto.
  { apply clean_settles. repeat split. }
  assert (E : formulaToMwStoich elems atof (render l) g = run (start g) (render l)).
  { unfold formulaToMwStoich, run. destruct (render l) eqn:E; [|reflexivity].
    exfalso. destruct l as [|it l]; [congruence|]. inversion Hw as [|? ? Hi _]; subst.
    destruct it as [e|es m]; cbn in E; [|discriminate]. destruct Hi as (_ & B & _).
    unfold render_el in E. destruct (fst e); discriminate. }
  rewrite E, R, run_nil, (step1_settles s' k' " "%char [] S eq_refl eq_refl).
  pose proof S as (_ & _ & _ & C). unfold FormulaModel.step1.
  change (isalpha " "%char || isspace " "%char || is_open " "%char || is_close " "%char) with true. cbn iota.
  rewrite (clean_complete k' _ C), (clean_flush k' C).
  change (is_open " "%char) with false. change (is_close " "%char) with false. cbn iota.
  destruct C as (C1 & C2 & C3). rewrite C1. cbn [length Nat.ltb Nat.leb].
  eexists _, _. split; [reflexivity|]. exact G.
Qed.
End P.

(** ---- weight = stoichiometry . atomic weights (C05) ---- *)
Section W.
Variable elems : list (str * Qc).
Variable atof : str -> Qc.
Definition wsum (g : nat -> Qc) : Qc :=
  fold_right (fun k q => (g (S k) * weight elems (S k) + q)%Qc) (Q2Qc 0) (seq 0 (length elems)).

Lemma wsum_add_gen g k a : forall l, NoDup l ->
  fold_right (fun i q => (add_at g (S k) a (S i) * weight elems (S i) + q)%Qc) (Q2Qc 0) l =
  (fold_right (fun i q => (g (S i) * weight elems (S i) + q)%Qc) (Q2Qc 0) l +
   (if existsb (Nat.eqb k) l then a * weight elems (S k) else Q2Qc 0))%Qc.
Proof.
  induction l as [|x l IH]; intro ND; cbn [fold_right existsb].
  - change (Q2Qc 0) with 0%Qc. ring.
  - inversion ND as [|? ? Hn ND']; subst. rewrite (IH ND'). unfold add_at.
    change (S x =? S k) with (x =? k). rewrite (Nat.eqb_sym x k).
    destruct (Nat.eqb_spec k x) as [->|Hne]; cbn [orb].
    + assert (F : existsb (Nat.eqb x) l = false).
      { destruct (existsb (Nat.eqb x) l) eqn:E; [|reflexivity]. apply existsb_exists in E as (y & Hy & Ey).
        apply Nat.eqb_eq in Ey. subst y. contradiction. }
      rewrite F. change (Q2Qc 0) with 0%Qc. ring.
    + destruct (existsb (Nat.eqb k) l); change (Q2Qc 0) with 0%Qc; ring.
Qed.
Lemma wsum_add g k a : 1 <= k <= length elems -> wsum (add_at g k a) = (wsum g + a * weight elems k)%Qc.
Proof.
  intro H. destruct k as [|k]; [lia|]. unfold wsum. rewrite wsum_add_gen by apply seq_NoDup.
  assert (E : existsb (Nat.eqb k) (seq 0 (length elems)) = true).
  { apply existsb_exists. exists k. split; [apply in_seq; lia|apply Nat.eqb_refl]. }
  now rewrite E.
Qed.

Definition good (g0 : nat -> Qc) (s : st) : Prop :=
  j s <= length elems /\ mw s = (wsum (stoich s) - wsum g0)%Qc /\
  forall i, i = 0 \/ length elems < i -> stoich s i = g0 i.

Lemma good_complete g0 s c s1 : good g0 s -> complete elems s c = Some s1 -> good g0 s1.
Proof.
  intros G H. unfold complete in H. destruct (_ && _); [|injection H as <-; exact G].
  destruct (lookup elems 1 (sym s)) as [k|] eqn:E; [|discriminate]. injection H as <-.
  apply lookup_in in E. destruct G as (A & B & C). repeat split; cbn; auto. lia.
Qed.
Lemma good_flush g0 s : good g0 s -> good g0 (flush elems atof s).
Proof.
  intros G. unfold flush. destruct (Nat.ltb_spec 0 (j s)); [|exact G].
  destruct G as (A & B & C). repeat split; cbn.
  - lia.
  - rewrite wsum_add by lia. rewrite B. ring.
  - intros i Hi. unfold add_at. destruct (Nat.eqb_spec i (j s)); [lia|auto].
Qed.
Lemma good_ext g0 s s' : j s' = j s -> mw s' = mw s -> stoich s' = stoich s -> good g0 s -> good g0 s'.
Proof. intros A B C (G1 & G2 & G3). unfold good. rewrite A, B, C. auto. Qed.

Lemma good_step g0 s c r s' r' : good g0 s -> step1 elems atof s c r = SGo s' r' -> good g0 s'.
Proof.
  intros G H. unfold step1 in H.
  destruct (isalpha c || isspace c || is_open c || is_close c).
  - destruct (complete elems s c) as [s1|] eqn:E; [|discriminate].
    apply (good_complete g0) in E; [|exact G]. apply good_flush in E.
    destruct (is_open c).
    + destruct (split_close r) as [[a b]|]; [|discriminate]. destruct (span_mult b) as [m b'].
      destruct m; injection H as <- _; [exact E|]. eapply good_ext; [..|exact E]; reflexivity.
    + destruct (is_close c); [injection H as <- _; eapply good_ext; [..|exact E]; reflexivity|].
      destruct (length _ <? 2); [|discriminate]. injection H as <- _. eapply good_ext; [..|exact E]; reflexivity.
  - destruct (numch c); [|discriminate]. destruct (num s).
    + destruct (lookup elems 1 (sym s)) as [k|] eqn:E; [|discriminate]. injection H as <- _.
      apply lookup_in in E. destruct G as (A & B & C). repeat split; cbn; auto. lia.
    + injection H as <- _. eapply good_ext; [..|exact G]; reflexivity.
Qed.

Lemma good_loop g0 fuel : forall s r m g, good g0 s -> loop elems atof fuel s r = Done m g ->
  m = (wsum g - wsum g0)%Qc /\ forall i, i = 0 \/ length elems < i -> g i = g0 i.
Proof.
  induction fuel as [|f IH]; intros s r m g G H; [discriminate|]. cbn [loop] in H. destruct r as [|c r].
  - destruct (step1 elems atof s " "%char []) as [| |s' r'] eqn:E; try discriminate.
    injection H as <- <-. apply (good_step g0) in E; [|exact G]. destruct E as (_ & B & C). auto.
  - destruct (step1 elems atof s c r) as [| |s' r'] eqn:E; try discriminate.
    eapply IH; [|exact H]. eapply good_step; eauto.
Qed.

Lemma parse_weight f g m g' : formulaToMwStoich elems atof f g = Done m g' ->
  m = (wsum g' - wsum g)%Qc /\ forall i, i = 0 \/ length elems < i -> g' i = g i.
Proof.
  unfold formulaToMwStoich. destruct f as [|c f]; [discriminate|]. apply good_loop.
  repeat split; cbn [start j mw stoich]; auto; [lia|]. change (Q2Qc 0) with 0%Qc. ring.
Qed.

(** ---- what is accepted, without parentheses (C06) ---- *)
Definition nopar (r : str) : bool := forallb (fun c => negb (is_open c) && negb (is_close c)) r.
Definition wf_el' (e : elem) : Prop := In (fst e) (map fst elems) /\ numeral (snd e) = true.
Definition symok (s : str) : bool := match s with [] | [_] => true | [_; b] => islower b | _ => false end.

Notation run := (run elems atof).
Lemma accepted r : forall s m g, nopar r = true -> run s r = Done m g -> symok (sym s) = true ->
  (num s = [] -> j s = 0 ->
     exists es, sym s ++ r = render_els es /\ Forall wf_el' es /\ Forall (fun e => symok (fst e) = true) es) /\
  (num s <> [] -> sym s = [] -> 0 < j s ->
     exists t es, r = t ++ render_els es /\ forallb numch t = true /\ Forall wf_el' es /\
                  Forall (fun e => symok (fst e) = true) es).
Proof.
  induction r as [|c r IH]; intros s m g Hp H Hsym.
  - rewrite run_nil in H. split.
    + intros Hn Hj. unfold step1 in H.
      change (isalpha " "%char || isspace " "%char || is_open " "%char || is_close " "%char) with true in H.
      cbn iota in H. unfold complete in H. destruct (sym s) as [|a t] eqn:Es.
      * exists []. repeat split; constructor.
      * change (negb (islower " "%char) && negb false) with true in H. cbn iota in H.
        destruct (lookup elems 1 (a :: t)) as [k|] eqn:E; [|discriminate].
        exists [(a :: t, None)]. split; [unfold render_els, render_el; cbn [flat_map fst snd text_of]; now rewrite !app_nil_r|].
        split; (constructor; [|constructor]); [|exact Hsym]. split; [|reflexivity]. now apply lookup_in in E.
    + intros _ _ _. exists [], []. repeat split; constructor.
  - cbn [nopar forallb] in Hp. apply andb_true_iff in Hp as [Hc Hp]. apply andb_true_iff in Hc as [Ho Hcl].
    apply negb_true_iff in Ho. apply negb_true_iff in Hcl.
    rewrite run_cons in H. unfold step1 in H. rewrite Ho, Hcl in H. rewrite !orb_false_r in H.
    destruct (isalpha c || isspace c) eqn:Hd.
    + split.
      * intros Hn Hj. unfold complete in H.
        destruct (sym s) as [|a t] eqn:Es.
        -- rewrite andb_false_r in H. unfold flush in H. rewrite Hj in H. change (0 <? 0) with false in H.
           cbn iota in H. rewrite Es in H. cbn [length Nat.ltb Nat.leb app] in H.
           destruct (IH _ _ _ Hp H eq_refl) as [A _]. destruct A as (es & A1 & A2); [exact Hn|exact Hj|].
           exists es. split; [exact A1|exact A2].
        -- destruct (islower c) eqn:Hl.
           ++ cbn [negb andb] in H. unfold flush in H. rewrite Hj in H. change (0 <? 0) with false in H.
              cbn iota in H. rewrite Es in H. destruct (length (a :: t) <? 2) eqn:L; [|discriminate].
              assert (Ht : t = []) by (destruct t; [reflexivity|discriminate]). subst t.
              destruct (IH _ _ _ Hp H) as [A _].
              { cbn. exact Hl. }
              destruct A as (es & A1 & A2); [exact Hn|exact Hj|].
              exists es. split; [|exact A2]. rewrite <- A1. reflexivity.
           ++ cbn [negb andb] in H.
              destruct (lookup elems 1 (a :: t)) as [k|] eqn:E; [|discriminate].
              unfold flush in H. cbn [j num mult mw stoich sym] in H.
              destruct (lookup_in _ _ _ _ E) as (Hin & Hk & _).
              destruct (Nat.ltb_spec 0 k); [|lia]. cbn [sym length Nat.ltb Nat.leb app num j] in H.
              destruct (IH _ _ _ Hp H eq_refl) as [A _]. destruct A as (es & A1 & A2 & A3); [reflexivity..|].
              exists ((a :: t, None) :: es). split.
              ** cbn [render_els flat_map]. fold (render_els es). rewrite <- A1. cbn [sym].
                 unfold render_el. cbn [fst snd text_of]. rewrite app_nil_r. reflexivity.
              ** split; constructor; auto. split; [exact Hin|reflexivity].
      * intros Hn Hs Hj. unfold complete in H. rewrite Hs in H. rewrite andb_false_r in H.
        unfold flush in H. destruct (Nat.ltb_spec 0 (j s)); [|lia]. cbn [sym num j] in H. rewrite Hs in H.
        cbn [length Nat.ltb Nat.leb app] in H.
        destruct (IH _ _ _ Hp H eq_refl) as [A _]. destruct A as (es & A1 & A2 & A3); [reflexivity..|].
        exists [], es. split; [exact A1|]. auto.
    + destruct (numch c) eqn:Hnc; [|discriminate]. split.
      * intros Hn Hj. rewrite Hn in H. destruct (lookup elems 1 (sym s)) as [k|] eqn:E; [|discriminate].
        destruct (lookup_in _ _ _ _ E) as (Hin & Hk & _).
        destruct (IH _ _ _ Hp H eq_refl) as [_ B]. destruct B as (t & es & B1 & B2 & B3 & B4).
        { discriminate. } { reflexivity. } { cbn. lia. }
        exists ((sym s, Some (c :: t)) :: es). split.
        -- cbn [render_els flat_map]. fold (render_els es). unfold render_el. cbn [fst snd text_of].
           rewrite B1. rewrite <- !app_assoc. reflexivity.
        -- split; constructor; auto. split; [exact Hin|]. cbn [snd numeral forallb]. now rewrite Hnc, B2.
      * intros Hn Hs Hj. destruct (num s) as [|n0 nt] eqn:En; [congruence|].
        destruct (IH _ _ _ Hp H) as [_ B]; [cbn; now rewrite Hs|].
        destruct B as (t & es & B1 & B2 & B3).
        { discriminate. } { exact Hs. } { exact Hj. }
        exists (c :: t), es. split; [now rewrite B1|]. split; [cbn [forallb]; now rewrite Hnc, B2|exact B3].
Qed.

Lemma accepted_nopar f g m g' :
  (forall s, In s (map fst elems) -> match s with c :: _ => isupper c = true | [] => False end) ->
  nopar f = true -> formulaToMwStoich elems atof f g = Done m g' ->
  exists es, f = render_els es /\ Forall (wf_el elems) es.
Proof.
  intros Hup Hp H. unfold formulaToMwStoich in H. destruct f as [|c f]; [discriminate|].
  destruct (accepted (c :: f) (start g) m g' Hp H eq_refl) as [A _].
  destruct A as (es & A1 & A2 & A3); [reflexivity..|].
  exists es. split; [exact A1|]. rewrite Forall_forall in *. intros e He.
  destruct (A2 e He) as [B1 B2]. specialize (A3 e He). repeat split; auto.
  specialize (Hup _ B1). destruct (fst e) as [|a [|b [|? ?]]]; cbn in *; try contradiction; try discriminate; auto.
  apply andb_true_iff. auto.
Qed.
End W.
