(** C231: setting several properties in one call. *)
From Coq Require Import Ascii String List Bool Arith ZArith Lia.
From Verif Require Import Str PropStrModel PropStrProps PropArrModel Tables.
Import ListNotations.

(** ** Specification *)
(** A field of [nCh] characters holds the text, filled up with blanks *)
Definition holds (field : Mem) (nCh : nat) (t : str) : Prop := forall j, (j < nCh)%nat -> field j = nth j t " "%char.
(** A text without a NUL, without two blanks in a row, and not ending with a blank *)
Definition tidy (t : str) : Prop :=
  ~ In NUL t /\ (forall j, (j < length t)%nat -> nth j t " "%char = " "%char -> nth (S j) t " "%char <> " "%char).

Lemma copyFrom_spec t nCh field : holds field nCh t -> tidy t -> (length t + 2 <= nCh)%nat ->
  forall left j m, (1 <= j)%nat -> (j <= length t + 1)%nat -> (j + left = nCh)%nat -> (forall i, (i < j)%nat -> m i = nth i t " "%char) ->
  cString (copyFrom field left j m) t.
Proof.
  intros H [NN T] L left. induction left as [|left IH]; intros j m J1 J2 E M; [lia|].
  cbn [copyFrom]. rewrite (H j), (H (j - 1)%nat) by lia.
  destruct (Ascii.eqb_spec (nth j t " "%char) blank) as [B1|B1], (Ascii.eqb_spec (nth (j - 1) t " "%char) blank) as [B2|B2]; cbn [andb].
  - destruct (Nat.ltb_spec (j - 1) (length t)) as [Q|Q].
    + exfalso. apply (T (j - 1)%nat Q B2). replace (S (j - 1)) with j by lia. exact B1.
    + assert (j = length t + 1)%nat as -> by lia. replace (length t + 1 - 1)%nat with (length t) by lia. split.
      * intros i Hi. unfold put. destruct (Nat.eqb_spec i (length t)); [lia|]. rewrite M by lia.
        rewrite (nth_indep t NUL " "%char) by exact Hi. split; [reflexivity|]. intros F. apply NN. rewrite <- F. now apply nth_In.
      * unfold put. now rewrite Nat.eqb_refl.
  - apply IH; try lia.
    + assert (j <> length t + 1)%nat; [|lia]. intros ->. apply B2. replace (length t + 1 - 1)%nat with (length t) by lia. now apply nth_overflow.
    + intros i Hi. unfold put. destruct (Nat.eqb_spec i j) as [->|N]; [reflexivity|]. apply M. lia.
  - apply IH; try lia.
    + assert (j <> length t + 1)%nat; [|lia]. intros ->. apply B1. apply nth_overflow. lia.
    + intros i Hi. unfold put. destruct (Nat.eqb_spec i j) as [->|N]; [reflexivity|]. apply M. lia.
  - apply IH; try lia.
    + assert (j <> length t + 1)%nat; [|lia]. intros ->. apply B1. apply nth_overflow. lia.
    + intros i Hi. unfold put. destruct (Nat.eqb_spec i j) as [->|N]; [reflexivity|]. apply M. lia.
Qed.
Lemma copyField_spec t nCh field m : holds field nCh t -> tidy t -> (length t + 2 <= nCh)%nat -> cString (copyField field nCh m) t.
Proof.
  intros H T L. unfold copyField. apply (copyFrom_spec t nCh field H T L); try lia.
  intros i Hi. assert (i = O) as -> by lia. unfold put. cbn [Nat.eqb]. apply H. lia.
Qed.
Lemma cString_unique m t u : cString m t -> cString m u -> t = u.
Proof.
  intros [A A0] [B B0]. assert (E : length t = length u).
  { destruct (Nat.lt_total (length t) (length u)) as [Q|[Q|Q]]; [|exact Q|].
    - destruct (B _ Q) as [_ K]. now rewrite A0 in K.
    - destruct (A _ Q) as [_ K]. now rewrite B0 in K. }
  apply (nth_ext t u NUL NUL E). intros i Hi. destruct (A i Hi) as [<- _]. rewrite E in Hi. now destruct (B i Hi) as [-> _].
Qed.

(** The call on an array of settings, each followed by at least two blanks, ends, and does what the settings do when given one
    by one in that order, whatever is in memory. *)
Lemma calls_spec tbl nCh fields : forall texts gs m s s', length gs = length texts ->
  Forall2 (fun f t => holds f nCh t /\ tidy t /\ (length t + 2 <= nCh)%nat) fields texts ->
  (Calls tbl nCh gs fields m s s' <-> s' = fold_left (fun s q => setProperty (fst q) tbl (snd q) s) (combine gs texts) s).
Proof.
  induction fields as [|f fields IH]; intros texts gs m s s' G F.
  - inversion F; subst. destruct gs; [|discriminate]. cbn. split; [now inversion 1|intros ->; constructor].
  - inversion F as [|? t ? ts (H & T & L) F']; subst. destruct gs as [|g gs]; [discriminate|]. cbn [combine fold_left fst snd].
    pose proof (copyField_spec t nCh f m H T L) as C. injection G as G. split.
    + inversion 1; subst. match goal with K : cString (copyField f nCh m) ?u |- _ => pose proof (cString_unique _ _ _ C K); subst u end. eapply IH; eauto.
    + intros E. econstructor; [exact C|]. now apply (IH ts gs _ _ s' G F').
Qed.
Theorem C231_partial : forall tbl nCh gs strings m s s' (texts : list str), length gs = length texts ->
  (forall i t, nth_error texts i = Some t -> holds (fun j => strings (i * nCh + j)%nat) nCh t /\ tidy t /\ (length t + 2 <= nCh)%nat) ->
  (setProperties tbl nCh (length texts) gs strings m s s' <->
   s' = fold_left (fun s q => setProperty (fst q) tbl (snd q) s) (combine gs texts) s).
Proof.
  intros tbl nCh gs strings m s s' texts G H. unfold setProperties. apply calls_spec; [exact G|].
  assert (K : forall k us, (forall i t, nth_error us i = Some t -> holds (fieldOf strings nCh (k + i)) nCh t /\ tidy t /\ (length t + 2 <= nCh)%nat) ->
    Forall2 (fun f t => holds f nCh t /\ tidy t /\ (length t + 2 <= nCh)%nat) (map (fieldOf strings nCh) (seq k (length us))) us).
  { intros k us. revert k. induction us as [|u us IH]; intros k A; cbn [seq length map]; constructor.
    - replace k with (k + 0)%nat by lia. now apply (A O).
    - apply (IH (S k)). intros i t N. replace (S k + i)%nat with (k + S i)%nat by lia. now apply (A (S i)). }
  apply (K O). intros i t N. exact (H i t N).
Qed.

(** One setting of the array: the phase it names, and no other, is switched off. *)
Theorem C231_suppress : forall tbl nCh g strings m s s' j r,
  nth_error (filter isPhase tbl) j = Some r -> NoDup (map label (filter isPhase tbl)) -> usable r = true ->
  label r <> [] -> plain (label r) = true -> (length (label r) <= 124)%nat -> lower (label r) = label r ->
  tidy (lit "suppress: " ++ label r) -> (length (label r) + 12 <= nCh)%nat -> holds strings nCh (lit "suppress: " ++ label r) ->
  setProperties tbl nCh 1 [g] strings m s s' -> s' = setInc j false s.
Proof.
  intros tbl nCh g strings m s s' j r N Nd U Ne Pl Sm Lo T L H C.
  assert (L2 : (length (lit "suppress: " ++ label r) + 2 <= nCh)%nat) by (rewrite app_length; change (length (lit "suppress: ")) with 10%nat; lia).
  apply (C231_partial tbl nCh [g] strings m s s' [lit "suppress: " ++ label r] eq_refl) in C.
  - subst s'. cbn [combine fold_left fst snd]. rewrite (C57_suppress_phase g tbl _ s j r N Nd Ne Pl Sm); [now rewrite U|].
    unfold lower in *. rewrite map_app, Lo. reflexivity.
  - intros [|i] t E; [|destruct i; discriminate]. cbn in E. injection E as <-. split; [exact H|]. split; [exact T|].
    exact L2.
Qed.

(** ** Without the two blanks it is false: the setting that fills its field *)
(** "suppress: garnet" in fields of 16: what is read goes on into memory that does not belong to the call. *)
Definition text (s : string) : Mem := fun i => nth i (lit s) " "%char.
Theorem C231_refuted : forall g, exists m1 m2 s1 s2,
  setProperties (asSolids tbl_xMeltsSolids) 16 1 [g] (text "suppress: garnet") m1 start s1 /\
  setProperties (asSolids tbl_xMeltsSolids) 16 1 [g] (text "suppress: garnet") m2 start s2 /\
  inc s1 3 = false /\ inc s2 3 = true.
Proof.
  intros g. exists (fun i => NUL), (fun i => if Nat.eqb i 16 then "s"%char else NUL). do 2 eexists. repeat apply conj.
  - unfold setProperties. cbn [seq map]. apply (Calls_next _ _ g [] _ [] _ _ (lit "suppress: garnet")).
    + split; [|reflexivity]. intros i Hi. cbn in Hi. do 16 (destruct i as [|i]; [split; [reflexivity|discriminate]|]). lia.
    + constructor.
  - unfold setProperties. cbn [seq map]. apply (Calls_next _ _ g [] _ [] _ _ (lit "suppress: garnets")).
    + split; [|reflexivity]. intros i Hi. cbn in Hi. do 17 (destruct i as [|i]; [split; [reflexivity|discriminate]|]). lia.
    + constructor.
  - vm_compute. reflexivity.
  - vm_compute. reflexivity.
Qed.
(** With one blank after it, the setting is ignored even when that memory happens to hold a NUL. *)
Theorem C231_refuted_one_blank : forall g s', setProperties (asSolids tbl_xMeltsSolids) 17 1 [g] (text "suppress: garnet ") (fun _ => NUL) start s' -> inc s' 3 = true.
Proof.
  intros g s' C. unfold setProperties in C. cbn [seq map] in C. inversion C as [|? ? ? ? ? ? t ? Q R]; subst. inversion R; subst.
  assert (K : cString (copyField (fieldOf (text "suppress: garnet ") 17 0) 17 (fun _ => NUL)) (lit "suppress: garnet ")).
  { split; [|reflexivity]. intros i Hi. cbn in Hi. do 17 (destruct i as [|i]; [split; [reflexivity|discriminate]|]). lia. }
  rewrite (cString_unique _ _ _ Q K). vm_compute. reflexivity.
Qed.

(** Case: two settings in fields of 30, the second in capitals, after a buffer full of anything *)
Definition two : Mem := text "suppress: garnet              Log fO2 Path: NNO             ".
Lemma tidyb t : forallb (fun c => negb (Ascii.eqb c NUL)) t = true ->
  forallb (fun j => negb (Ascii.eqb (nth j t " "%char) " "%char && Ascii.eqb (nth (S j) t " "%char) " "%char)) (seq 0 (length t)) = true -> tidy t.
Proof.
  intros A B. split.
  - intros I. rewrite forallb_forall in A. specialize (A _ I). now rewrite Ascii.eqb_refl in A.
  - intros j Hj E F. rewrite forallb_forall in B. specialize (B j). rewrite E, F in B. cbn in B. discriminate B. apply in_seq. lia.
Qed.
Theorem C231_case : forall g1 g2 m s', setProperties (asSolids tbl_xMeltsSolids) 30 2 [g1; g2] two m start s' ->
  inc s' 3 = false /\ inc s' 4 = true /\ fo2Path s' = 2%Z.
Proof.
  intros g1 g2 m s' C. apply (C231_partial _ 30 [g1; g2] two m start s' [lit "suppress: garnet"; lit "Log fO2 Path: NNO"] eq_refl) in C.
  - subst s'. vm_compute. auto.
  - intros i t E. destruct i as [|[|i]]; [| |destruct i; discriminate]; cbn in E; injection E as <-.
    + split; [|split; [apply tidyb; reflexivity|cbn; lia]]. intros j Hj. do 30 (destruct j as [|j]; [reflexivity|]). lia.
    + split; [|split; [apply tidyb; reflexivity|cbn; lia]]. intros j Hj. do 30 (destruct j as [|j]; [reflexivity|]). lia.
Qed.
Theorem C231_case_runs : forall g1 g2 m, exists s', setProperties (asSolids tbl_xMeltsSolids) 30 2 [g1; g2] two m start s'.
Proof.
  intros g1 g2 m. eexists. apply (C231_partial _ 30 [g1; g2] two m start _ [lit "suppress: garnet"; lit "Log fO2 Path: NNO"] eq_refl); [|reflexivity].
  intros i t E. destruct i as [|[|i]]; [| |destruct i; discriminate]; cbn in E; injection E as <-.
  - split; [|split; [apply tidyb; reflexivity|cbn; lia]]. intros j Hj. do 30 (destruct j as [|j]; [reflexivity|]). lia.
  - split; [|split; [apply tidyb; reflexivity|cbn; lia]]. intros j Hj. do 30 (destruct j as [|j]; [reflexivity|]). lia.
Qed.
