From Coq Require Import Reals ZArith Lra Lia.
From Verif Require Import RealTac Fo2Model.
Local Open Scope R_scope.

Ltac bufcase b := 
  let H := fresh in
  assert (H : (b = 0 \/ b = 1 \/ b = 2 \/ b = 3 \/ b = 4 \/ b = 5 \/ b = 6 \/ b = 7 \/ b = 8 \/ b = 9 \/ b = 10
    \/ b = 11 \/ b = 12 \/ b = 13 \/ b = 14 \/ b = 15 \/ b = 16 \/ b = 17 \/ b = 18 \/ b = 19)%Z) by lia;
  repeat (destruct H as [H|H]); subst b.

Lemma lim_num : 67201.0 = 67201.
Proof. dec. lra. Qed.

(** COH in T: everywhere *)
Lemma coh_is_dt t p : 0 < t -> is_derive (fun t => coh t p) t (coh_dt t p).
Proof.
  intro Ht. unfold coh, coh_dt. generalize (pLim p). intro q. unfold SQUARE.
  destruct (Rlt_dec 67201.0 p); dec; auto_derive; try lra; field; lra.
Qed.
Lemma coh_is_dt2 t p : 0 < t -> is_derive (fun t => coh_dt t p) t (coh_dt2 t p).
Proof.
  intro Ht. unfold coh_dt2, coh_dt. generalize (pLim p). intro q. unfold SQUARE, CUBE.
  assert (t <> 0) by lra. assert (t * t <> 0) by nra.
  destruct (Rlt_dec 67201.0 p); dec; auto_derive; auto; field; lra.
Qed.

Lemma coh_low t p : p < 67201 -> coh t p = (-22324.0 + 189.0*p/1000.0 - 1.41*p*p/1000000.0)/t + 4.62.
Proof.
  intro H. pose proof lim_num. unfold coh, pLim. destruct (Rlt_dec p 67201.0); [|lra].
  destruct (Rlt_dec 67201.0 p); lra.
Qed.
Lemma coh_is_dp_low t p : 0 < t -> p < 67201 -> is_derive (fun p => coh t p) p (coh_dp t p).
Proof.
  intros Ht Hp. pose proof lim_num as L.
  assert (E : 0 < 67201 - p) by lra.
  apply is_derive_near with (g := fun p => (-22324.0 + 189.0*p/1000.0 - 1.41*p*p/1000000.0)/t + 4.62)
    (eps := mkposreal _ E).
  - intros y Hy. cbn in Hy. apply coh_low. apply Rabs_def2 in Hy. lra.
  - unfold coh_dp, pLim. destruct (Rlt_dec p 67201.0); [|lra]. destruct (Rlt_dec 67201.0 p); [lra|].
    clear L. dec. auto_derive; [lra|]. field. lra.
Qed.
Lemma coh_is_dp2_low t p : 0 < t -> p < 67201 -> is_derive (fun p => coh_dp t p) p (coh_dp2 t p).
Proof.
  intros Ht Hp. pose proof lim_num as L.
  assert (E : 0 < 67201 - p) by lra.
  apply is_derive_near with (g := fun p => (189.0/1000.0 - 2.0*1.41*p/1000000.0)/t) (eps := mkposreal _ E).
  - intros y Hy. cbn in Hy. apply Rabs_def2 in Hy. unfold coh_dp, pLim.
    destruct (Rlt_dec y 67201.0); [|lra]. destruct (Rlt_dec 67201.0 y); lra.
  - unfold coh_dp2. clear L. dec. auto_derive; [lra|]. field. lra.
Qed.

(** above the limit the true slope is 608.966/10000/t *)
Lemma coh_true_dp_high t p : 0 < t -> 67201 < p ->
  is_derive (fun p => coh t p) p (608.966 / 10000.0 / t).
Proof.
  intros Ht Hp. pose proof lim_num as L.
  assert (E : 0 < p - 67201) by lra.
  apply is_derive_near with (g := fun p => (-22324.0 + 189.0*67201.0/1000.0 - 1.41*67201.0*67201.0/1000000.0)/t + 4.62
      + (608.966*(p/10000.0)/t - 608.966*(67201.0/10000.0)/t)) (eps := mkposreal _ E).
  - intros y Hy. cbn in Hy. apply Rabs_def2 in Hy. unfold coh, pLim.
    destruct (Rlt_dec y 67201.0); [lra|]. destruct (Rlt_dec 67201.0 y); lra.
  - clear L. dec. auto_derive; [lra|]. field. lra.
Qed.
Lemma coh_dp_high_wrong t p : 0 < t -> 67201 < p -> coh_dp t p <> 608.966 / 10000.0 / t.
Proof.
  intros Ht Hp. pose proof lim_num as L. unfold coh_dp, pLim.
  destruct (Rlt_dec p 67201.0); [lra|]. destruct (Rlt_dec 67201.0 p); [|lra]. intro H.
  assert (G : (189.0/1000.0 - 2.0*1.41*67201.0/1000000.0)/t = 0).
  { clear L. dec. lra. }
  clear H L. dec. apply Rmult_integral in G. destruct G as [G|G]; [lra|].
  revert G. apply Rinv_neq_0_compat. lra.
Qed.

Lemma buf_dt d t p b : 0 < t -> (0 <= b <= 19)%Z ->
  is_derive (fun t => log10fo2 d t p b) t (dlog10fo2dt t p b).
Proof.
  intros Ht Hb. bufcase b; cbn [log10fo2 dlog10fo2dt]; unfold SQUARE;
  try (dec; auto_derive; [lra|field; lra]).
  - apply is_derive_eq with (plus (coh_dt t p) 0).
    + apply @is_derive_plus; [now apply coh_is_dt|]. apply @is_derive_const.
    + unfold plus; cbn. ring.
Qed.
Lemma buf_dt2 t p b : 0 < t -> (0 <= b <= 19)%Z ->
  is_derive (fun t => dlog10fo2dt t p b) t (d2log10fo2dt2 t p b).
Proof.
  intros Ht Hb. assert (t <> 0) by lra. assert (t * t <> 0) by nra.
  bufcase b; cbn [d2log10fo2dt2 dlog10fo2dt]; unfold SQUARE, CUBE;
  try (dec; auto_derive; [auto|field; lra]).
  - now apply coh_is_dt2.
Qed.
Lemma buf_dp d t p b : 0 < t -> (1 <= b <= 19)%Z -> (b = 4%Z -> p < 67201) ->
  is_derive (fun p => log10fo2 d t p b) p (dlog10fo2dp t p b).
Proof.
  intros Ht Hb H4. bufcase b; try lia; cbn [log10fo2 dlog10fo2dp];
  try (dec; auto_derive; [exact I|field; lra]); try (dec; auto_derive; [lra|field; lra]).
  apply is_derive_eq with (plus (coh_dp t p) 0).
    + apply @is_derive_plus; [now apply coh_is_dp_low; auto|]. apply @is_derive_const.
    + unfold plus; cbn. ring.
Qed.
Lemma buf_dp2 t p b : 0 < t -> (1 <= b <= 19)%Z -> (b = 4%Z -> p < 67201) ->
  is_derive (fun p => dlog10fo2dp t p b) p (d2log10fo2dp2 t p b).
Proof.
  intros Ht Hb H4. bufcase b; try lia; cbn [d2log10fo2dp2 dlog10fo2dp];
  try (dec; auto_derive; [exact I|field; lra]); try (dec; auto_derive; [lra|field; lra]).
  now apply coh_is_dp2_low; auto.
Qed.
