(** C35, C57: the settings strings of the library. *)
From Coq Require Import Ascii String List Bool Arith ZArith Lia.
From Verif Require Import Str Tables PropStrModel.
Import ListNotations.

(** ** Specification *)

(** The oxygen buffers by name, with the code each name stands for
    (includes/silmin.h 637-656). *)
Definition bufferCode : list (string * Z) :=
  [("none", 0); ("hm", 1); ("nno", 2); ("fmq", 3); ("coh", 4); ("iw", 5);
   ("+3fmq", 6); ("+2fmq", 7); ("+1fmq", 8); ("-1fmq", 9); ("-2fmq", 10); ("-3fmq", 11); ("-4fmq", 12); ("-5fmq", 13);
   ("-6fmq", 14); ("-7fmq", 15); ("-8fmq", 16); ("-9fmq", 17); ("+0.5fmq", 18); ("+1.5fmq", 19)]%string%Z.

(** [property] is the text [t] up to capitalisation. *)
Definition reads (property : str) (t : string) : Prop := lower property = lit t.

(** Same settings (the include flags are compared position by position). *)
Definition same (a b : Settings) : Prop :=
  fo2Path a = fo2Path b /\ frSol a = frSol b /\ frLiq a = frLiq b /\ frFlu a = frFlu b /\ forall i, inc a i = inc b i.

(** ** Proofs *)
Lemma reads_length property t : reads property t -> length property = length (lit t).
Proof. intros H. rewrite <- H. symmetry. apply map_length. Qed.

Lemma setProperty_exact garbage tbl property t s : reads property t ->
  setProperty garbage tbl property s =
  let len := length (lit t) in
  let mem := fun i => if Nat.ltb i (Nat.min len REC) then nth i (lit t) NUL else garbage i in
  if matches mem len 0 14 "log fo2 path: " then firstWord mem len fo2Words s
  else if matches mem len 0 10 "suppress: " then
    if matches mem len 10 4 "none" then setInc (length tbl) true (includeAll (phaseCount tbl) s)
    else if matches mem len 10 6 "liquid" then setInc (length tbl) false s
    else suppress mem len tbl 0 s
  else if matches mem len 0 6 "mode: " then
    if matches mem len 6 18 "fractionate solids" then mkSet (fo2Path s) true (frLiq s) (frFlu s) (inc s)
    else if matches mem len 6 19 "fractionate liquids" then mkSet (fo2Path s) (frSol s) true (frFlu s) (inc s)
    else if matches mem len 6 18 "fractionate fluids" then mkSet (fo2Path s) (frSol s) (frLiq s) true (inc s)
    else if matches mem len 10 18 "fractionate none" then mkSet (fo2Path s) false false false (inc s)
    else s
  else s.
Proof. intros H. unfold setProperty. rewrite (reads_length _ _ H), H. reflexivity. Qed.

(** ** C57 *)
Theorem C57_buffer_strings : forall name code, In (name, code) bufferCode ->
  forall garbage tbl property s, reads property ("log fo2 path: " ++ name) ->
  setProperty garbage tbl property s = setFo2 code s.
Proof.
  intros name code I garbage tbl property s R.
  cbn [bufferCode In] in I.
  repeat (destruct I as [I|I]; [injection I as <- <-; rewrite (setProperty_exact garbage tbl _ _ s R); vm_compute; destruct s; reflexivity|]).
  destruct I.
Qed.

(** A buffer name that differs from every known one within the characters
    compared (the first five, or as many as both have) changes nothing. *)
Lemma eqn_firstn n : forall mem i l w, n <= length l -> n <= length w -> (forall k, k < n -> mem (i + k) = nth k w NUL) ->
  eqn n mem i l = true -> firstn n l = firstn n w.
Proof.
  induction n as [|n IH]; intros mem i [|c l] [|d w] Hl Hw Hm E; cbn [length] in *; try lia; try reflexivity.
  cbn [eqn] in E. apply andb_true_iff in E. destruct E as [E1 E2]. apply Ascii.eqb_eq in E1.
  pose proof (Hm 0 ltac:(lia)) as M0. rewrite Nat.add_0_r in M0. cbn [nth] in M0. cbn [firstn]. f_equal; [congruence|].
  apply (IH mem (S i)); [lia|lia| |exact E2]. intros k Hk. replace (S i + k) with (i + S k) by lia. rewrite Hm by lia. reflexivity.
Qed.
Theorem C57_unknown_buffer_ignored : forall garbage tbl property s (w : str),
  lower property = lit "log fo2 path: " ++ w ->
  (forall name code, In (name, code) bufferCode ->
     let m := Nat.min 5 (Nat.min (length (lit name)) (length w)) in firstn m (lit name) <> firstn m w) ->
  setProperty garbage tbl property s = s.
Proof.
  intros garbage tbl property s w R U.
  assert (L : length property = 14 + length w) by (pose proof (f_equal (@length ascii) R) as E; unfold lower in E; rewrite map_length, app_length in E; exact E).
  unfold setProperty. cbv zeta. rewrite R, L.
  set (mem := fun i => _).
  assert (Mm : forall k, k < length w -> k < 20 -> mem (14 + k) = nth k w NUL).
  { intros k Hk H20. unfold mem. destruct (Nat.ltb_spec (14 + k) (Nat.min (14 + length w) REC)); [|unfold REC in *; lia].
    change 14 with (length (lit "log fo2 path: ")) at 1. rewrite app_nth2_plus. reflexivity. }
  assert (M0 : matches mem (14 + length w) 0 14 "log fo2 path: " = true).
  { assert (Mz : forall k, k < 14 -> mem k = nth k (lit "log fo2 path: ") NUL).
    { intros k Hk. unfold mem. destruct (Nat.ltb_spec k (Nat.min (14 + length w) REC)); [|unfold REC in *; lia]. apply app_nth1. exact Hk. }
    unfold matches, limit. destruct (Nat.ltb_spec (14 + length w) 0); [lia|]. replace (Nat.min (14 + length w - 0) 14) with 14 by lia.
    cbn [eqn lit]. clearbody mem. cbn [eqn]. rewrite !Mz by lia. reflexivity. }
  rewrite M0. clear M0.
  assert (Z : forall name k code, In (name, code) bufferCode -> k = Nat.min 5 (length (lit name)) -> matches mem (14 + length w) 14 k name = false).
  { intros name k code I ->. match goal with |- ?m = false => destruct m eqn:E end; [exfalso|reflexivity]. unfold matches, limit in E.
    destruct (Nat.ltb_spec (14 + length w) 14); [lia|].
    replace (Nat.min (14 + length w - 14) (Nat.min 5 (length (lit name)))) with (Nat.min 5 (Nat.min (length (lit name)) (length w))) in E by lia.
    apply (U name code I). apply (eqn_firstn _ mem 14); [lia|lia| |exact E]. intros k Hk. apply Mm; lia. }
  unfold fo2Words. cbn [firstWord].
  repeat match goal with |- context [matches mem (14 + length w) 14 ?k ?nm] =>
    erewrite (Z nm k); [|cbn [bufferCode In]; tauto|reflexivity] end. reflexivity.
Qed.
Theorem C57_unknown_case : forall garbage tbl s, setProperty garbage tbl (lit "Log fO2 Path: -1nno") s = s.
Proof.
  intros. apply C57_unknown_buffer_ignored with (w := lit "-1nno"); [reflexivity|]. intros name code I.
  cbn [bufferCode In] in I. repeat (destruct I as [I|I]; [injection I as <- <-; vm_compute; discriminate|]). destruct I.
Qed.

Theorem C57_mode_strings : forall garbage tbl property s,
  (reads property "mode: fractionate solids" ->
   setProperty garbage tbl property s = mkSet (fo2Path s) true (frLiq s) (frFlu s) (inc s)) /\
  (reads property "mode: fractionate liquids" ->
   setProperty garbage tbl property s = mkSet (fo2Path s) (frSol s) true (frFlu s) (inc s)) /\
  (reads property "mode: fractionate fluids" ->
   setProperty garbage tbl property s = mkSet (fo2Path s) (frSol s) (frLiq s) true (inc s)).
Proof.
  intros garbage tbl property s. split; [|split]; intros R; rewrite (setProperty_exact garbage tbl _ _ s R);
  vm_compute; destruct s; reflexivity.
Qed.

(** a label that the reserved words "none" and "liquid" do not capture *)
Definition plain (l : str) : bool :=
  negb (streqb (firstn 4 l) (firstn (Nat.min (length l) 4) (lit "none"))) &&
  negb (streqb (firstn 6 l) (firstn (Nat.min (length l) 6) (lit "liquid"))).

Lemma eqn_spec mem l : forall n i, (n <= length l)%nat ->
  eqn n mem i l = streqb (firstn n l) (map mem (seq i n)).
Proof.
  induction l as [|c l IH]; intros n i Hn; destruct n; cbn in Hn; try reflexivity; try lia.
  cbn [eqn firstn seq map streqb]. rewrite (IH n (S i)) by lia. now rewrite Ascii.eqb_sym.
Qed.

Lemma map_mem (low : str) g n : forall i, (i + n <= Nat.min (length low) REC)%nat ->
  map (fun i => if Nat.ltb i (Nat.min (length low) REC) then nth i low NUL else g i) (seq i n) = firstn n (skipn i low).
Proof.
  induction n as [|n IH]; intros i Hi; [reflexivity|].
  cbn [seq map]. destruct (Nat.ltb_spec i (Nat.min (length low) REC)); [|lia]. rewrite IH by lia.
  assert (L : (i < length low)%nat) by lia. clear - L. revert i L. induction low as [|c low IHl]; intros i L; [cbn in L; lia|].
  destruct i; [reflexivity|]. cbn [nth skipn]. apply IHl. cbn in L. lia.
Qed.

Lemma eqn_mem low g i n l : (n <= length l)%nat -> (i + n <= Nat.min (length low) REC)%nat ->
  eqn n (fun i => if Nat.ltb i (Nat.min (length low) REC) then nth i low NUL else g i) i l = streqb (firstn n l) (firstn n (skipn i low)).
Proof. intros. rewrite eqn_spec by auto. now rewrite map_mem. Qed.

Lemma streqb_sym a b : streqb a b = streqb b a.
Proof. apply eq_true_iff_eq. rewrite !streqb_eq. split; congruence. Qed.

Lemma suppress_skip mem len tbl : forall j s r,
  nth_error (filter isPhase tbl) j = Some r -> NoDup (map label (filter isPhase tbl)) ->
  (Z.of_nat len - 10 = Z.of_nat (length (label r)))%Z -> map mem (seq 10 (length (label r))) = label r ->
  forall k, suppress mem len tbl k s = if usable r then setInc (k + j) false s else s.
Proof.
  induction tbl as [|x tbl IH]; intros j s r N Nd L M k; [now destruct j|].
  cbn [suppress]. cbn [filter] in N, Nd. destruct (isPhase x) eqn:P.
  - cbn [map] in Nd. inversion Nd as [|? ? Ni Nd']; subst.
    destruct j as [|j]; cbn [nth_error] in N.
    + injection N as ->.
      replace (Z.of_nat len - 10 - Z.of_nat (length (label r)))%Z with 0%Z by lia. cbn [Z.eqb andb].
      rewrite eqn_spec by lia. rewrite firstn_all, M, streqb_refl. now rewrite Nat.add_0_r.
    + assert (Neq : label x <> label r).
      { intros E. apply Ni. rewrite E. apply in_map. eapply nth_error_In; eauto. }
      replace (Z.eqb _ 0 && eqn _ mem 10 (label x)) with false.
      2:{ symmetry. apply andb_false_iff. destruct (Z.eqb_spec (Z.of_nat len - 10 - Z.of_nat (length (label x))) 0) as [E|]; [right|now left].
          rewrite eqn_spec by lia. rewrite firstn_all.
          assert (EL : length (label x) = length (label r)) by lia. rewrite EL, M.
          destruct (streqb (label x) (label r)) eqn:Q; auto. apply streqb_eq in Q. contradiction. }
      rewrite (IH j s r N Nd' L M (S k)). now rewrite Nat.add_succ_comm.
  - apply (IH j s r N Nd L M k).
Qed.

(** A phase named in a suppress string, and no other, is switched off; [j] is
    its number among the phases of the table. *)
Theorem C57_suppress_phase : forall garbage tbl property s j r,
  nth_error (filter isPhase tbl) j = Some r -> NoDup (map label (filter isPhase tbl)) ->
  label r <> [] -> plain (label r) = true -> (length (label r) <= 124)%nat ->
  lower property = lit "suppress: " ++ label r ->
  setProperty garbage tbl property s = if usable r then setInc j false s else s.
Proof.
  intros garbage tbl property s j r N Nd Ne Pl Sm R.
  set (low := lit "suppress: " ++ label r) in *.
  assert (Len : length property = length low) by (rewrite <- R; symmetry; apply map_length).
  assert (L10 : length low = (10 + length (label r))%nat) by (unfold low; rewrite app_length; reflexivity).
  assert (L0 : (0 < length (label r))%nat) by (destruct (label r); [easy|cbn; lia]).
  assert (LR : Nat.min (length low) REC = length low) by (unfold REC; lia).
  unfold setProperty. rewrite Len, R.
  set (mem := fun i => if Nat.ltb i (Nat.min (length low) REC) then nth i low NUL else garbage i).
  assert (A : matches mem (length low) 0 14 "log fo2 path: " = false).
  { unfold matches, limit. change (Nat.ltb (length low) 0) with false. cbv iota. rewrite Nat.sub_0_r.
    unfold mem. rewrite eqn_mem by (rewrite ?LR; cbn; lia).
    assert (E : exists m, Nat.min (length low) 14 = S m) by (exists (Nat.pred (Nat.min (length low) 14)); lia).
    destruct E as [m ->]. reflexivity. }
  assert (B : matches mem (length low) 0 10 "suppress: " = true).
  { unfold matches, limit. change (Nat.ltb (length low) 0) with false. cbv iota. rewrite Nat.sub_0_r.
    replace (Nat.min (length low) 10) with 10%nat by lia.
    unfold mem. rewrite eqn_mem by (rewrite ?LR; cbn; lia). reflexivity. }
  assert (W : forall k w, (k <= length (lit w))%nat ->
    matches mem (length low) 10 k w = streqb (firstn k (label r)) (firstn (Nat.min (length (label r)) k) (lit w))).
  { intros k w Hk. unfold matches, limit. destruct (Nat.ltb_spec (length low) 10); [lia|].
    replace (length low - 10)%nat with (length (label r)) by lia.
    unfold mem. rewrite eqn_mem by lia. rewrite streqb_sym. f_equal.
    change (skipn 10 low) with (label r). rewrite <- firstn_firstn. rewrite firstn_all2 by (rewrite firstn_length; lia). reflexivity. }
  rewrite A, B, (W 4%nat "none"%string), (W 6%nat "liquid"%string) by (cbn; lia).
  unfold plain in Pl. apply andb_true_iff in Pl as [P1 P2]. apply negb_true_iff in P1, P2. rewrite P1, P2.
  apply (suppress_skip mem (length low) tbl j s r N Nd); [lia|].
  unfold mem. rewrite map_mem by lia. change (skipn 10 low) with (label r). apply firstn_all.
Qed.

(** "suppress: none" switches every phase and the liquid on; "suppress: liquid"
    switches the liquid off. *)
Lemma includeAll_spec n s : fo2Path (includeAll n s) = fo2Path s /\ frSol (includeAll n s) = frSol s /\
  frLiq (includeAll n s) = frLiq s /\ frFlu (includeAll n s) = frFlu s /\
  forall i, inc (includeAll n s) i = if Nat.ltb i n then true else inc s i.
Proof.
  induction n as [|n (A & B & C & D & E)]; cbn [includeAll]; [auto|].
  do 4 (split; [assumption|]). intros i. cbn [setInc inc]. rewrite E.
  destruct (Nat.eqb_spec i n), (Nat.ltb_spec i n), (Nat.ltb_spec i (S n)); auto; lia.
Qed.
Theorem C57_suppress_none_liquid : forall garbage tbl property s,
  (reads property "suppress: none" ->
   same (setProperty garbage tbl property s)
        (mkSet (fo2Path s) (frSol s) (frLiq s) (frFlu s)
           (fun i => if Nat.ltb i (phaseCount tbl) || Nat.eqb i (length tbl) then true else inc s i))) /\
  (reads property "suppress: liquid" ->
   same (setProperty garbage tbl property s)
        (mkSet (fo2Path s) (frSol s) (frLiq s) (frFlu s)
           (fun i => if Nat.eqb i (length tbl) then false else inc s i))).
Proof.
  intros garbage tbl property s. split; intros R; rewrite (setProperty_exact garbage tbl _ _ s R); cbv zeta.
  - change (same (setInc (length tbl) true (includeAll (phaseCount tbl) s))
        (mkSet (fo2Path s) (frSol s) (frLiq s) (frFlu s)
           (fun i => if Nat.ltb i (phaseCount tbl) || Nat.eqb i (length tbl) then true else inc s i))).
    destruct (includeAll_spec (phaseCount tbl) s) as (A & B & C & D & E).
    do 4 (split; [assumption|]). intros i. cbn [setInc inc]. rewrite E.
    destruct (Nat.eqb i (length tbl)); [now rewrite orb_true_r|]. now rewrite orb_false_r.
  - split; [reflexivity|]. do 3 (split; [reflexivity|]). intros i. reflexivity.
Qed.

(** A text that is at least as long as a keyword's first difference and agrees
    with none of the three keywords changes nothing. *)
Definition startsLike (k : nat) (w : string) (low : str) : bool :=
  streqb (firstn (Nat.min (length low) k) (lit w)) (firstn k low).
Theorem C57_unknown : forall garbage tbl property s,
  startsLike 14 "log fo2 path: " (lower property) = false ->
  startsLike 10 "suppress: " (lower property) = false ->
  startsLike 6 "mode: " (lower property) = false ->
  setProperty garbage tbl property s = s.
Proof.
  intros garbage tbl property s A B C. unfold setProperty.
  assert (Len : length property = length (lower property)) by (symmetry; apply map_length).
  rewrite Len. set (low := lower property) in *.
  assert (W : forall k w, (k <= length (lit w))%nat -> (k <= 14)%nat ->
    matches (fun i => if Nat.ltb i (Nat.min (length low) REC) then nth i low NUL else garbage i) (length low) 0 k w = startsLike k w low).
  { intros k w Hk H14. unfold matches, limit. change (Nat.ltb (length low) 0) with false. cbv iota. rewrite Nat.sub_0_r.
    rewrite eqn_mem by (unfold REC; lia). unfold startsLike. f_equal. cbn [skipn].
    rewrite <- firstn_firstn. rewrite firstn_all2 by (rewrite firstn_length; lia). reflexivity. }
  rewrite !W by (cbn; lia). now rewrite A, B, C.
Qed.

(** The phase labels of the four shipped tables qualify: distinct, not
    captured by a reserved word, short, and already in lower case. *)
Fixpoint distinct (l : list str) : bool :=
  match l with [] => true | x :: l' => negb (existsb (streqb x) l') && distinct l' end.
Definition phaseLabels (t : list (string * bool * string)) : list str :=
  map (fun r => lit (fst (fst r))) (filter (fun r => snd (fst r)) t).
Definition goodLabels (t : list (string * bool * string)) : bool :=
  distinct (phaseLabels t) &&
  forallb (fun l => negb (streqb l []) && plain l && Nat.leb (length l) 124 && streqb (lower l) l) (phaseLabels t).
Theorem C57_shipped_tables :
  forallb goodLabels [tbl_xMeltsSolids; tbl_meltsSolids; tbl_meltsFluidSolids; tbl_pMeltsSolids] = true.
Proof. vm_compute. reflexivity. Qed.

(** ** C35 as stated is false *)

(** The documented value "qfm" is not recognised; neither is the documented
    record "log fo2 delta"; "mode: fractionate none" switches nothing off. *)
Theorem C35_refuted_documented_strings : forall garbage tbl property s,
  (reads property "log fo2 path: qfm" -> setProperty garbage tbl property s = s) /\
  (reads property "log fo2 delta: 1.5" -> setProperty garbage tbl property s = s) /\
  (reads property "mode: fractionate none" -> setProperty garbage tbl property s = s).
Proof.
  intros garbage tbl property s. split; [|split]; intros R; rewrite (setProperty_exact garbage tbl _ _ s R);
  vm_compute; destruct s; reflexivity.
Qed.

(** Texts that name nothing do change settings: a keyword without a value sets
    the first value, and after a text that stops inside a keyword the outcome
    depends on what was in memory before. *)
Theorem C35_refuted_unknown_strings :
  (forall garbage tbl property s, reads property "log fo2 path: " -> setProperty garbage tbl property s = setFo2 0 s) /\
  (forall tbl s, exists garbage1 garbage2,
     setProperty garbage1 tbl (lit "log") s = setFo2 1 s /\ setProperty garbage2 tbl (lit "log") s = s).
Proof.
  split.
  - intros garbage tbl property s R. rewrite (setProperty_exact garbage tbl _ _ s R). vm_compute. destruct s; reflexivity.
  - intros tbl s. exists (fun i => nth (i - 14) (lit "hm") NUL), (fun _ => NUL).
    split; rewrite (setProperty_exact _ tbl (lit "log") "log" s eq_refl); vm_compute; destruct s; reflexivity.
Qed.

(** A concrete use: "Suppress: Garnet" on the xMELTS table. *)
Definition asSolids (t : list (string * bool * string)) : list Solid :=
  map (fun r => mkSolid (lit (fst (fst r))) (snd (fst r)) true) t.
Definition start : Settings := mkSet 0 false false false (fun _ => true).
Theorem C57_case :
  let s := setProperty (fun _ => "x"%char) (asSolids tbl_xMeltsSolids) (lit "Suppress: Garnet") start in
  inc s 3 = false /\ inc s 2 = true /\ inc s 4 = true /\ fo2Path s = 0%Z.
Proof. vm_compute. auto. Qed.
