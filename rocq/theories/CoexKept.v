(** C170: checkForCoexistingLiquids answers FALSE only after every search failed, and takes the most distant composition. *)
From Coq Require Import Reals List Bool Arith Lia Lra.
From Verif Require Import LiqModel NashModel CoexModel CoexProps.
Import List ListNotations.
Open Scope R_scope.

Section Call.
Variable n : nat.
Variables WH WS WV : nat -> nat -> R.
Variables t p : R.
Variable redox : option ((nat -> R) -> nat -> R).
Variable h0 : nat -> R.
Notation trial := (trial n WH WS WV t p redox h0).
Notation searches := (searches n WH WS WV t p redox h0).
Notation scan := (scan n WH WS WV t p redox h0).
Notation check := (check n WH WS WV t p redox h0).

Lemma none_somes {A} (l : list (option A)) : somes l = [] -> Forall (fun o => o = None) l.
Proof. induction l as [|[a|] l IH]; intros E; [constructor|discriminate E|constructor; auto]. Qed.
Lemma far_best ref l x0 y : In y (x0 :: l) -> dist2 n ref y <= dist2 n ref (farthest n ref x0 l).
Proof.
  unfold farthest. revert x0 y. induction l as [|z l IH]; intros x0 y; cbn [fold_left].
  - intros [E|[]]. subst. lra.
  - intros I. destruct (Rlt_dec (dist2 n ref x0) (dist2 n ref z)) as [L|L].
    + destruct I as [E|I]; [|now apply IH]. subst y. apply Rle_trans with (dist2 n ref z); [lra|]. apply IH. now left.
    + destruct I as [E|[E|I]]; [subst; apply IH; now left| |apply IH; now right]. subst z. apply Rle_trans with (dist2 n ref x0); [lra|]. apply IH. now left.
Qed.
Lemma far_in ref l x0 : In (farthest n ref x0 l) (x0 :: l).
Proof.
  unfold farthest. revert x0. induction l as [|y l IH]; intros x0; cbn [fold_left]; [now left|].
  destruct (Rlt_dec _ _); destruct (IH y) as [E|I]; destruct (IH x0) as [E'|I']; try (right; left; assumption); try (left; assumption); right; right; assumption.
Qed.
Lemma scan_none ms : scan ms None -> Forall (fun m => searches m []) ms.
Proof. intros S. remember None as o eqn:E. revert E. induction S; intros E; [constructor|constructor; auto|discriminate]. Qed.
Lemma scan_first ms x : scan ms (Some x) -> exists k m z cs, nth_error ms k = Some m /\ searches m (z :: cs) /\ x = farthest n (rOf n m) z cs /\
  forall k' m', (k' < k)%nat -> nth_error ms k' = Some m' -> searches m' [].
Proof.
  intros S. remember (Some x) as o eqn:E. revert E. induction S as [|m ms o S1 S2 IH|m ms z cs S1]; intros E; [discriminate E| |].
  - destruct (IH E) as (k & m0 & z & cs & A & B & C & D). exists (Datatypes.S k), m0, z, cs. split; [exact A|split; [exact B|split; [exact C|]]].
    intros [|k'] m' Hn Em; [injection Em as <-; exact S1|]. apply (D k'); [lia|exact Em].
  - injection E as <-. exists 0%nat, m, z, cs. split; [reflexivity|split; [exact S1|split; [reflexivity|]]]. intros k' m' H. lia.
Qed.

(** FALSE: each search, from every liquid towards every component in it, ended without an acceptable composition *)
Theorem C170_searched : forall liquidMass liquids liquids', check liquidMass liquids liquids' false -> liquidMass <> 0 -> 0 < t -> 0 <= p ->
  forall m i, In m liquids -> (i <= n)%nat -> m i <> 0 -> trial m i None.
Proof.
  intros lm ls ls' C Nm Ht Hp m i I Hi Ni. unfold CoexModel.check in C. destruct (Req_EM_T lm 0); [contradiction|]. destruct (Rle_dec t 0); [lra|]. destruct (Rlt_dec p 0); [lra|].
  destruct C as ([x|] & Sc & C); [destruct C as (_ & C); discriminate|]. apply scan_none in Sc. rewrite Forall_forall in Sc. destruct (Sc m I) as (l & F2 & El). symmetry in El. apply none_somes in El.
  assert (Ie : In i (present n m)). { unfold present. apply filter_In. split; [apply in_seq; lia|]. unfold isZ. destruct (Req_EM_T (m i) 0); [contradiction|reflexivity]. }
  clear - F2 El Ie. induction F2 as [|e o is l T F IH]; [destruct Ie|]. inversion El; subst. destruct Ie as [E|Ie]; [subst; exact T|]. now apply IH.
Qed.
(** TRUE: the new liquid has the composition most distant from the liquid tested, among those found; the liquids before it gave none *)
Theorem C170_most_distant : forall liquidMass liquids liquids', check liquidMass liquids liquids' true ->
  exists k m x cs, nth_error liquids k = Some m /\ searches m cs /\ In x cs /\
    (forall y, In y cs -> MassModel.sum n (fun i => (y i - rOf n m i) * (y i - rOf n m i)) <= MassModel.sum n (fun i => (x i - rOf n m i) * (x i - rOf n m i))) /\
    (forall k' m', (k' < k)%nat -> nth_error liquids k' = Some m' -> searches m' []) /\
    exists new, nth_error liquids' (length liquids) = Some new /\ forall i, new i = xr n x i * / 100000.
Proof.
  intros lm ls ls' C. unfold CoexModel.check in C. destruct (Req_EM_T lm 0); [destruct C; discriminate|]. destruct (Rle_dec t 0); [destruct C; discriminate|]. destruct (Rlt_dec p 0); [destruct C; discriminate|].
  destruct C as ([x|] & Sc & C); [|destruct C; discriminate]. destruct C as (E & _). destruct (scan_first _ _ Sc) as (k & m & z & cs & A & B & Ex & D).
  exists k, m, x, (z :: cs). split; [exact A|split; [exact B|split; [rewrite Ex; apply far_in|split]]].
  { intros y Iy. pose proof (far_best (rOf n m) cs z y Iy) as Q. rewrite <- Ex in Q. exact Q. }
  split; [exact D|]. exists (fun i => xr n x i * MASSIN). split; [|reflexivity]. rewrite E. unfold divide. destruct ls as [|m0 ms]; [destruct k; discriminate|].
  cbn [length nth_error]. rewrite nth_error_app2, Nat.sub_diag by lia. reflexivity.
Qed.
End Call.
