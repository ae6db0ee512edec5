(** C194, C195: names handed out, phases looked up by name. *)
From Coq Require Import String Ascii Bool Arith ZArith Lia List Sorting.Permutation Sorting.Sorted.
From Verif Require Import InitModel InitProps Tables NameModel NameSpec.
Import ListNotations.

(** ** C194 *)
Section Names.
Variables (nCh : nat).
Lemma get_list i s : match get i s with Some c => nth_error (list_ascii_of_string s) i = Some c | None => nth_error (list_ascii_of_string s) i = None end.
Proof. revert i. induction s as [|c s IH]; intros [|i]; cbn; auto. apply IH. Qed.
Lemma copyNames_ok names : forall b k, k * nCh + nCh * length names <= size b ->
  exists b', copyNames b k nCh names = Ok b' /\ size b' = size b /\
   forall i, at_ b' i = if Nat.leb (k * nCh) i && Nat.ltb i (k * nCh + nCh * length names)
                        then match get ((i - k * nCh) mod nCh) (nth ((i - k * nCh) / nCh) names ""%string) with Some c => c | None => NUL end else at_ b i.
Proof.
  induction names as [|s rest IH]; intros b k L; cbn [copyNames length].
  - exists b. split; [reflexivity|]. split; [reflexivity|]. intros i. rewrite Nat.mul_0_r, Nat.add_0_r.
    destruct (Nat.leb_spec (k * nCh) i), (Nat.ltb_spec i (k * nCh)); cbn [andb]; try reflexivity. lia.
  - unfold strncpy. cbn [length] in L. destruct (Nat.ltb_spec (size b) (k * nCh + nCh)) as [B|B]; [nia|].
    match goal with |- context [copyNames ?b1 _ _ _] => destruct (IH b1 (S k)) as (b' & E & Sz & F) end; [cbn [size]; nia|].
    exists b'. split; [exact E|]. split; [exact Sz|]. intros i. rewrite F. cbn [at_ size]. clear F E IH.
    destruct (Nat.leb_spec (S k * nCh) i) as [A|A], (Nat.ltb_spec i (S k * nCh + nCh * length rest)) as [C|C]; cbn [andb];
    destruct (Nat.leb_spec (k * nCh) i) as [A'|A'], (Nat.ltb_spec i (k * nCh + nCh * S (length rest))) as [C'|C']; cbn [andb]; try nia;
    try (destruct (Nat.ltb_spec i (k * nCh + nCh)); cbn [andb]; try nia); try reflexivity.
    + assert (N0 : nCh <> 0) by nia. replace (i - k * nCh) with (i - S k * nCh + 1 * nCh) by nia. rewrite Nat.mod_add, Nat.div_add by exact N0.
      replace ((i - S k * nCh) / nCh + 1) with (S ((i - S k * nCh) / nCh)) by lia. reflexivity.
    + rewrite Nat.mod_small, Nat.div_small by lia. reflexivity.
Qed.
Lemma copyOut_ok from : forall n to, n <= size from -> n <= size to -> exists to', copyOut n from to = Ok to' /\ size to' = size to /\
  forall i, at_ to' i = if Nat.ltb i n then (if Ascii.eqb (at_ from i) NUL then BLANK else at_ from i) else at_ to i.
Proof.
  induction n as [|n IH]; intros to L1 L2; cbn [copyOut].
  - exists to. split; [reflexivity|]. split; [reflexivity|]. intros i. reflexivity.
  - destruct (IH to ltac:(lia) ltac:(lia)) as (t' & E & Sz & F). rewrite E, Sz.
    destruct (Nat.leb_spec (size to) n); [lia|]. destruct (Nat.leb_spec (size from) n); [lia|]. cbn [orb].
    eexists. split; [reflexivity|]. split; [reflexivity|]. intros i. cbn [at_]. rewrite F.
    destruct (Nat.eqb_spec i n) as [->|N].
    + rewrite (proj2 (Nat.ltb_lt n (S n))) by lia. reflexivity.
    + destruct (Nat.ltb_spec i n), (Nat.ltb_spec i (S n)); try lia; reflexivity.
Qed.
End Names.
Lemma nth_blank n i d : i < n -> nth i (repeat BLANK n) d = BLANK.
Proof. revert i. induction n as [|n IH]; intros [|i] H; cbn; try lia; [reflexivity|]. apply IH. lia. Qed.
Lemma padded_at s n i d : i < n -> nth i (padded s n) d = match get i s with Some c => c | None => BLANK end.
Proof.
  intros H. unfold padded. assert (F : forall (l : list ascii) m, i < m -> nth i (firstn m l) d = nth i l d).
  { clear. intros l. revert i. induction l as [|c l IH]; intros i [|m] H; try lia; cbn [firstn]; [reflexivity|]. destruct i; [reflexivity|]. cbn. apply IH. lia. }
  rewrite F by exact H. pose proof (get_list i s) as G. destruct (get i s) as [c|].
  - rewrite app_nth1; [now apply nth_error_nth|]. apply nth_error_Some. congruence.
  - apply nth_error_None in G. rewrite app_nth2 by exact G. apply nth_blank. lia.
Qed.
Lemma padded_length s n : length (padded s n) = n.
Proof. unfold padded. rewrite firstn_length, app_length, repeat_length. lia. Qed.
Definition clean (s : string) : Prop := ~ In NUL (list_ascii_of_string s).
Lemma field_at b n k i d : i < n -> nth i (field b n k) d = at_ b (k * n + i).
Proof. intros H. unfold field. rewrite (nth_indep _ _ (at_ b (k * n + 0))) by now rewrite map_length, seq_length. rewrite (map_nth (fun i => at_ b (k * n + i))), seq_nth by exact H. reflexivity. Qed.
(** with room for all names they arrive, each in its field, blanks behind it; nothing past the caller's room is touched *)
Theorem C194_names names nCh number memory caller : length names <= number -> nCh * number <= size caller -> (forall s, In s names -> clean s) ->
  exists out, getNames names nCh number memory caller = Ok (out, length names)
  /\ (forall k, k < length names -> field out nCh k = padded (nth k names ""%string) nCh)
  /\ (forall i, nCh * number <= i -> at_ out i = at_ caller i).
Proof.
  intros Ln Lc Cl. unfold getNames. destruct (Nat.ltb_spec (size caller) (nCh * number)); [lia|].
  destruct (copyNames_ok nCh names (mkBuf (nCh * number) memory) 0) as (b & E & Sz & F); [cbn [size]; nia|]. rewrite E. cbn [size] in Sz.
  destruct (copyOut_ok b (nCh * length names) (mkBuf (size caller) (fun i => if Nat.ltb i (nCh * number) then NUL else at_ caller i))) as (out & E' & Sz' & F'); [rewrite Sz; nia|cbn [size]; nia|].
  rewrite E'. exists out. split; [reflexivity|]. split.
  - intros k Hk. apply nth_ext with (d := NUL) (d' := NUL); [now rewrite padded_length; unfold field; rewrite map_length, seq_length|].
    intros i Hi. unfold field in Hi. rewrite map_length, seq_length in Hi. rewrite field_at, padded_at by exact Hi. rewrite F'.
    rewrite (proj2 (Nat.ltb_lt _ _)) by nia. rewrite F. rewrite Nat.mul_0_l, Nat.add_0_l, Nat.sub_0_r. rewrite (proj2 (Nat.leb_le _ _)) by lia. rewrite (proj2 (Nat.ltb_lt _ _)) by nia. cbn [andb].
    rewrite Nat.div_add_l, Nat.div_small, Nat.add_0_r by lia. rewrite (Nat.add_comm (k * nCh)), Nat.mod_add, Nat.mod_small by lia.
    pose proof (get_list i (nth k names ""%string)) as G. destruct (get i (nth k names ""%string)) as [c|]; [|reflexivity].
    destruct (Ascii.eqb_spec c NUL) as [Z|]; [|reflexivity]. exfalso. apply (Cl _ (nth_In names ""%string Hk)). rewrite <- Z. apply (nth_error_In _ _ G).
  - intros i Hi. rewrite F'. cbn [at_]. rewrite !(proj2 (Nat.ltb_ge _ _)) by nia. reflexivity.
Qed.
(** with room for fewer it writes past the room *)
Theorem C194_refuted names nCh number memory caller : number < length names -> 0 < nCh -> getNames names nCh number memory caller = Overrun.
Proof.
  intros L N. unfold getNames. destruct (Nat.ltb _ _); [reflexivity|].
  enough (E : forall names b k, size b < k * nCh + nCh * length names -> k * nCh <= size b -> copyNames b k nCh names = Overrun) by (rewrite E; [reflexivity|cbn [size]; nia|cbn [size]; lia]).
  clear - N. induction names as [|s rest IH]; intros b k Hb Hk; cbn [copyNames length] in *; [lia|]. unfold strncpy.
  destruct (Nat.ltb_spec (size b) (k * nCh + nCh)); [reflexivity|]. apply IH; cbn [size]; nia.
Qed.
(** a label that does not end with a blank is the field without the blanks at its end, if it fits *)
Definition endsWell (s : string) : bool := match rev (list_ascii_of_string s) with [] => true | c :: _ => negb (Ascii.eqb c BLANK) end.
Lemma trimmed_blanks n : trimmed (repeat BLANK n) = [].
Proof. induction n as [|n IH]; cbn [trimmed repeat]; [reflexivity|]. rewrite IH. reflexivity. Qed.
Lemma trimmed_app l n c : c <> BLANK -> trimmed (l ++ c :: repeat BLANK n) = l ++ [c].
Proof.
  intros H. induction l as [|d l IH]; cbn [app trimmed].
  - rewrite trimmed_blanks. destruct (Ascii.eqb_spec c BLANK); [contradiction|reflexivity].
  - rewrite IH. destruct l; reflexivity.
Qed.
Theorem C194_recovered s n : String.length s <= n -> endsWell s = true -> trimmed (padded s n) = list_ascii_of_string s.
Proof.
  intros L E. unfold padded. assert (Ls : length (list_ascii_of_string s) = String.length s) by (clear; induction s; cbn; congruence).
  rewrite firstn_app, firstn_all2 by lia. replace (firstn (n - length (list_ascii_of_string s)) (repeat BLANK n)) with (repeat BLANK (n - length (list_ascii_of_string s))).
  2:{ clear. generalize (n - length (list_ascii_of_string s)) (Nat.le_sub_l n (length (list_ascii_of_string s))). intros m H. revert n H. induction m as [|m IH]; intros [|n] H; cbn; try lia; [reflexivity|reflexivity|]. now rewrite <- IH by lia. }
  unfold endsWell in E. remember (list_ascii_of_string s) as l eqn:El. clear El Ls L s.
  destruct (rev l) as [|c r] eqn:R.
  - assert (l = []) by (rewrite <- (rev_involutive l), R; reflexivity). subst l. cbn [app]. apply trimmed_blanks.
  - assert (K : l = rev r ++ [c]) by (rewrite <- (rev_involutive l), R; reflexivity). rewrite K, <- app_assoc. cbn [app]. apply trimmed_app.
    intros Z. subst c. cbn in E. discriminate.
Qed.
(** ** The tables *)
Definition okNames (m : Mode) : bool :=
  forallb (fun s => Nat.leb (String.length s) 13 && endsWell s && forallb (fun c => negb (Ascii.eqb c NUL)) (list_ascii_of_string s)) (phaseNames m).
Lemma ok_names m : In m modes -> forall s, In s (phaseNames m) -> String.length s <= 13 /\ endsWell s = true /\ clean s.
Proof.
  intros Hm s Hs. assert (K : forallb okNames modes = true) by (vm_compute; reflexivity). rewrite forallb_forall in K. specialize (K m Hm). unfold okNames in K.
  rewrite forallb_forall in K. specialize (K s Hs). apply andb_prop in K. destruct K as [K K3]. apply andb_prop in K. destruct K as [K1 K2].
  split; [now apply Nat.leb_le|]. split; [exact K2|]. intros I. rewrite forallb_forall in K3. specialize (K3 _ I). rewrite Ascii.eqb_refl in K3. discriminate.
Qed.
(** so with fields of thirteen characters or more every phase name comes back without its blanks *)
Theorem C194_phases m nCh number memory caller : In m modes -> length (phaseNames m) <= number -> nCh * number <= size caller -> 13 <= nCh ->
  exists out, getNames (phaseNames m) nCh number memory caller = Ok (out, length (phaseNames m))
  /\ forall k, k < length (phaseNames m) -> trimmed (field out nCh k) = list_ascii_of_string (nth k (phaseNames m) ""%string).
Proof.
  intros Hm Ln Lc L13. destruct (C194_names (phaseNames m) nCh number memory caller Ln Lc) as (out & E & F & _); [intros s Hs; apply (ok_names m Hm s Hs)|].
  exists out. split; [exact E|]. intros k Hk. rewrite F by exact Hk. destruct (ok_names m Hm _ (nth_In _ ""%string Hk)) as (L & W & _). apply C194_recovered; [lia|exact W].
Qed.
(** shorter fields make names the same *)
Theorem C194_short_refuted : exists k1 k2, k1 < length (phaseNames mode_meltsFluid) /\ k2 < length (phaseNames mode_meltsFluid) /\ nth k1 (phaseNames mode_meltsFluid) ""%string <> nth k2 (phaseNames mode_meltsFluid) ""%string
  /\ padded (nth k1 (phaseNames mode_meltsFluid) ""%string) 5 = padded (nth k2 (phaseNames mode_meltsFluid) ""%string) 5.
Proof.
  pose (find := fun n : string => (fix go k (l : list string) := match l with [] => 0 | s :: r => if String.eqb s n then k else go (S k) r end) 0 (phaseNames mode_meltsFluid)).
  exists (find "orthopyroxene"%string), (find "ortho-oxide"%string). vm_compute. repeat split; try lia; discriminate.
Qed.

(** ** C195 *)
Section Lookup.
Variables (qsort : (Item -> Item -> comparison) -> list Item -> list Item) (bsearch : Item -> list Item -> (Item -> Item -> comparison) -> option Item).
Hypotheses (Sorts : sorts qsort) (Finds : finds bsearch).
Notation lookup := (lookup qsort bsearch).
Variable m : Mode.
Hypothesis Hm : In m modes.
Lemma same_name (a b : Item) : comparePhases a b = Eq <-> snd a = snd b.
Proof.
  unfold comparePhases, strcmp. destruct a as [i a], b as [j b]. cbn [snd]. clear. split.
  - revert b. induction a as [|c a IH]; intros [|d b] H; cbn in H; try discriminate; [reflexivity|].
    destruct (Ascii.compare c d) eqn:E; try discriminate. f_equal; [|now apply IH].
    unfold Ascii.compare in E. apply N.compare_eq in E. rewrite <- (ascii_N_embedding c), <- (ascii_N_embedding d). now rewrite E.
  - intros <-. induction a as [|c a IH]; cbn; [reflexivity|]. unfold Ascii.compare. now rewrite N.compare_refl.
Qed.
Lemma lookup_spec name : String.length name < maxLength m ->
  match lookup m name with
  | Ok (Some z) => In (z, name) (items m)
  | Ok None => forall z, ~ In (z, name) (items m)
  | Overrun => False end.
Proof.
  intros L. unfold NameModel.lookup. destruct (Nat.ltb_spec (maxLength m) (String.length name + 1)); [lia|].
  destruct (Sorts (items m)) as [P S]. pose proof (Finds (0%Z, name) _ S) as F. destruct (bsearch _ _ _) as [[z s]|]; cbn [option_map fst].
  - destruct F as [F1 F2]. apply same_name in F2. cbn [snd] in F2. subst s. exact (Permutation_in _ (Permutation_sym P) F1).
  - intros z I. apply (F (z, name) (Permutation_in _ P I)). now apply same_name.
Qed.
Lemma items_unique z z' s : In (z, s) (items m) -> In (z', s) (items m) -> z = z'.
Proof.
  assert (K : forallb (fun m => forallb (fun e => forallb (fun e' : Item => implb (String.eqb (snd e) (snd e')) (Z.eqb (fst e) (fst e'))) (items m)) (items m)) modes = true) by (vm_compute; reflexivity).
  rewrite forallb_forall in K. specialize (K m Hm). intros A B. rewrite forallb_forall in K. specialize (K _ A). rewrite forallb_forall in K. specialize (K _ B). cbn [fst snd] in K.
  rewrite String.eqb_refl in K. now apply Z.eqb_eq.
Qed.
Lemma max_14 : maxLength m = 14.
Proof. assert (K : forallb (fun m => Nat.eqb (maxLength m) 14) modes = true) by (vm_compute; reflexivity). rewrite forallb_forall in K. now apply Nat.eqb_eq, K. Qed.
Lemma in_items i : i < length (mSol m) -> rowPhase m i = true -> In (Z.of_nat i, rowLabel m i) (items m).
Proof. intros H P. right. apply (in_map (fun i => (Z.of_nat i, rowLabel m i))). apply filter_In. split; [apply in_seq; lia|exact P]. Qed.
Lemma found z s : In (z, s) (items m) -> lookup m s = Ok (Some z).
Proof.
  intros I. assert (L : String.length s < maxLength m).
  { unfold maxLength. clear - I. induction (items m) as [|e l IH]; [destruct I|]. cbn [map fold_right]. destruct I as [->|I]; [cbn [snd]; lia|]. specialize (IH I). lia. }
  pose proof (lookup_spec s L) as K. destruct (lookup m s) as [[z'|]|]; [|now destruct (K z)|destruct K]. now rewrite (items_unique z' z s K I).
Qed.
(** every phase of the table is found by its label, at its place; the liquid at -1 *)
Theorem C195_found : (forall i, i < length (mSol m) -> rowPhase m i = true -> lookup m (rowLabel m i) = Ok (Some (Z.of_nat i))) /\ lookup m "liquid" = Ok (Some (-1)%Z).
Proof. split; [intros i H P; apply found; now apply in_items|]. apply found. now left. Qed.
(** a name that is neither is not found, if it is not longer than the longest label *)
Theorem C195_unknown name : String.length name <= 13 -> name <> "liquid"%string -> (forall i, i < length (mSol m) -> rowPhase m i = true -> rowLabel m i <> name) -> lookup m name = Ok None.
Proof.
  intros L N H. pose proof (lookup_spec name) as K. rewrite max_14 in K. specialize (K ltac:(lia)). destruct (lookup m name) as [[z|]|]; [|reflexivity|destruct K].
  exfalso. destruct K as [K|K]; [congruence|]. apply in_map_iff in K. destruct K as (i & E & I). apply filter_In in I. destruct I as [I P]. apply in_seq in I. injection E as _ E.
  exact (H i ltac:(lia) P E).
Qed.
(** a longer name is written past the end of the key *)
Theorem C195_refuted name : 13 < String.length name -> lookup m name = Overrun.
Proof. intros L. unfold NameModel.lookup. rewrite max_14. now rewrite (proj2 (Nat.ltb_lt _ _)) by lia. Qed.
(** so that a name as the library hands it out, with its blanks, is never one it accepts unless it fills its field *)
Theorem C195_padded_refuted s n : In s (phaseNames m) -> String.length s < n -> let name := string_of_list_ascii (padded s n) in
  lookup m name = Overrun \/ lookup m name = Ok None.
Proof.
  intros I L name. assert (Ln : String.length name = n).
  { unfold name. rewrite <- (padded_length s n) at 2. generalize (padded s n). clear. induction l; cbn; congruence. }
  destruct (Nat.lt_ge_cases 13 n) as [G|G]; [left; apply C195_refuted; lia|right].
  assert (B : endsWell name = false).
  { unfold endsWell, name. rewrite list_ascii_of_string_of_list_ascii. unfold padded.
    assert (Ls : length (list_ascii_of_string s) = String.length s) by (clear; induction s; cbn; congruence).
    assert (E : firstn n (list_ascii_of_string s ++ repeat BLANK n) = firstn (n - 1) (list_ascii_of_string s ++ repeat BLANK n) ++ [BLANK]).
    { apply nth_ext with (d := NUL) (d' := NUL).
      - rewrite app_length, !firstn_length, app_length, repeat_length. cbn. lia.
      - intros k Hk. rewrite firstn_length, app_length, repeat_length in Hk.
        assert (F : forall (l : list ascii) a i d, i < a -> nth i (firstn a l) d = nth i l d).
        { clear. intros l a i d. revert a i. induction l as [|c l IH]; intros [|a] i H; try lia; cbn [firstn]; [destruct i; reflexivity|]. destruct i; [reflexivity|]. cbn. apply IH. lia. }
        rewrite F by lia. destruct (Nat.lt_ge_cases k (n - 1)).
        + rewrite (app_nth1 (firstn _ _)) by (rewrite firstn_length, app_length, repeat_length; lia). now rewrite F by lia.
        + rewrite (app_nth2 (firstn _ _)) by (rewrite firstn_length, app_length, repeat_length; lia). rewrite firstn_length, app_length, repeat_length.
          replace (k - Nat.min (n - 1) (length (list_ascii_of_string s) + n)) with 0 by lia. cbn [nth]. rewrite app_nth2 by lia. apply nth_blank. lia. }
    rewrite E, rev_app_distr. reflexivity. }
  assert (W : forall x, In x (phaseNames m) -> x <> name) by (intros x Hx ->; destruct (ok_names m Hm name Hx) as (_ & W & _); congruence).
  apply C195_unknown; [lia| |].
  - intros E. apply (W "liquid"%string); [right; left; reflexivity|now symmetry].
  - intros i Hi Pi. apply W. right. right. apply (in_map (rowLabel m)). apply filter_In. split; [apply in_seq; lia|exact Pi].
Qed.
(** the index handed out with a name is ten times the place that name is found at, and ten *)
Theorem C195_indices k : 0 < k -> k < length (phaseNames m) -> exists z, lookup m (nth k (phaseNames m) ""%string) = Ok (Some z) /\ nth k (phaseIndices m) 0%Z = (10 * z + 10)%Z.
Proof.
  intros K0 Hk. destruct k as [|[|k]]; [lia|exists (-1)%Z; split; [apply C195_found|reflexivity]|]. cbn [nth phaseNames phaseIndices] in *.
  cbn [length phaseNames] in Hk. rewrite map_length in Hk.
  exists (Z.of_nat (nth k (phaseRows m) 0)). assert (I : In (nth k (phaseRows m) 0) (phaseRows m)) by (apply nth_In; lia). apply filter_In in I. destruct I as [I P]. apply in_seq in I.
  rewrite (nth_indep _ ""%string (rowLabel m 0)) by (rewrite map_length; lia). rewrite map_nth. split; [apply C195_found; [lia|exact P]|].
  rewrite (nth_indep _ 0%Z ((fun i => (10 * Z.of_nat i + 10)%Z) 0)) by (rewrite map_length; lia). now rewrite (map_nth (fun i => (10 * Z.of_nat i + 10)%Z)).
Qed.
End Lookup.
(** there are such functions: insertion, and looking at one after the other *)
Fixpoint insert (e : Item) (l : list Item) : list Item :=
  match l with [] => [e] | a :: r => match comparePhases e a with Gt => a :: insert e r | _ => e :: l end end.
Definition inserted (cmp : Item -> Item -> comparison) (l : list Item) : list Item := fold_right insert [] l.
Definition looked (key : Item) (l : list Item) (cmp : Item -> Item -> comparison) : option Item := find (fun e => match cmp key e with Eq => true | _ => false end) l.
Lemma cmp_flip a b : comparePhases a b = Gt -> comparePhases b a = Lt.
Proof.
  unfold comparePhases, strcmp. generalize (snd a) (snd b). clear. intros a. induction a as [|c a IH]; intros [|d b]; cbn; try discriminate; auto.
  unfold Ascii.compare. rewrite (N.compare_antisym (N_of_ascii d)). destruct (N.compare (N_of_ascii d) (N_of_ascii c)); cbn; try discriminate; auto.
Qed.
Theorem C195_case : sorts inserted /\ finds looked.
Proof.
  split.
  - assert (P : forall e l, Permutation (e :: l) (insert e l)).
    { intros e l. induction l as [|a r IH]; cbn; [reflexivity|]. destruct (comparePhases e a); try reflexivity. rewrite perm_swap. now rewrite IH. }
    assert (S : forall e l, Sorted (fun a b => comparePhases a b <> Gt) l -> Sorted (fun a b => comparePhases a b <> Gt) (insert e l)).
    { intros e l. induction 1 as [|a r Sr IH Hd]; cbn [insert]; [repeat constructor|]. destruct (comparePhases e a) eqn:E.
      - constructor; [constructor; assumption|constructor; congruence].
      - constructor; [constructor; assumption|constructor; congruence].
      - constructor; [exact IH|]. apply cmp_flip in E. destruct r as [|b r]; cbn [insert]; [constructor; congruence|]. inversion Hd; subst.
        destruct (comparePhases e b); constructor; congruence. }
    intros l. unfold inserted. induction l as [|a r [IH1 IH2]]; cbn [fold_right]; [split; constructor|]. split; [rewrite <- P; now constructor|now apply S].
  - intros key l _. unfold looked. destruct (find _ l) as [e|] eqn:F.
    + apply find_some in F. destruct F as [I E]. split; [exact I|]. destruct (comparePhases key e); congruence.
    + intros e I E. pose proof (find_none _ _ F e I) as N. cbv beta in N. rewrite E in N. discriminate.
Qed.
