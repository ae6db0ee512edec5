(** Properties C07, C08, C24: oxygen buffers (sources/gibbs.c). *)
From Coq Require Import String Reals ZArith List Lra Lia QArith Qcanon Qreals.
From Verif Require Import RealTac Fo2Model Fo2Proofs Str Num MeltsFileModel MeltsFileSpec MeltsFileProps.
Import ListNotations.
Local Open Scope R_scope.

(** C07: the T-derivatives are exact for every buffer, offset, T > 0 and P. *)
Theorem C07_buffer_dT_exact : forall d t p b, 0 < t -> (0 <= b <= 19)%Z ->
  is_derive (fun t => log10fo2 d t p b) t (dlog10fo2dt t p b) /\
  is_derive (fun t => dlog10fo2dt t p b) t (d2log10fo2dt2 t p b).
Proof. intros d t p b Ht Hb. exact (conj (buf_dt d t p b Ht Hb) (buf_dt2 t p b Ht Hb)). Qed.
Print Assumptions C07_buffer_dT_exact.

(** C07, the part true of the P-derivatives: all buffers, COH only below its
    pressure limit of 67201 bar. *)
Theorem C07_buffer_dP_exact_partial : forall d t p b, 0 < t -> (1 <= b <= 19)%Z -> (b = 4%Z -> p < 67201) ->
  is_derive (fun p => log10fo2 d t p b) p (dlog10fo2dp t p b) /\
  is_derive (fun p => dlog10fo2dp t p b) p (d2log10fo2dp2 t p b).
Proof. intros d t p b Ht Hb H4. exact (conj (buf_dp d t p b Ht Hb H4) (buf_dp2 t p b Ht Hb H4)). Qed.
(** the same as a property of its own (C100) *)
Theorem C100_buffer_dP : forall d t p b, 0 < t -> (1 <= b <= 19)%Z -> (b = 4%Z -> p < 67201) ->
  is_derive (fun p => log10fo2 d t p b) p (dlog10fo2dp t p b) /\
  is_derive (fun p => dlog10fo2dp t p b) p (d2log10fo2dp2 t p b).
Proof. exact C07_buffer_dP_exact_partial. Qed.
Print Assumptions C07_buffer_dP_exact_partial.
Theorem C07_nonvacuous : (0 < 1473.15) /\ (1 <= 4 <= 19)%Z /\ (4%Z = 4%Z -> 1000 < 67201).
Proof. repeat split; try lia; try intros _; dec; lra. Qed.

(** C07 is false for COH above 67201 bar: at every T and every such P the slope
    returned is not the slope of the curve. *)
Theorem C07_COH_dP_refuted : forall t p, 0 < t -> 67201 < p ->
  ~ is_derive (fun p => log10fo2 0 t p 4) p (dlog10fo2dp t p 4).
Proof.
  intros t p Ht Hp H. cbn [log10fo2 dlog10fo2dp] in H.
  assert (H2 : is_derive (fun p => coh t p + 0) p (608.966 / 10000.0 / t)).
  { apply is_derive_eq with (plus (608.966 / 10000.0 / t) 0).
    - apply @is_derive_plus; [now apply coh_true_dp_high|apply @is_derive_const].
    - unfold plus; cbn; ring. }
  apply is_derive_unique in H. apply is_derive_unique in H2.
  apply (coh_dp_high_wrong t p Ht Hp). congruence.
Qed.
Print Assumptions C07_COH_dP_refuted.

(** ... and with no buffer selected the value is the constant 0 but the slope
    returned is 0.110/T *)
Theorem C07_none_dP_refuted : forall t p, 0 < t ->
  ~ is_derive (fun p => log10fo2 0 t p 0) p (dlog10fo2dp t p 0).
Proof.
  intros t p Ht H. cbn [log10fo2 dlog10fo2dp] in H.
  assert (H2 : is_derive (fun _ : R => 0.0) p 0) by apply @is_derive_const.
  apply is_derive_unique in H. apply is_derive_unique in H2.
  assert (E : 0.110 / t = 0) by (etransitivity; [symmetry; exact H|exact H2]).
  assert (0 < 0.110 / t); [|lra]. apply Rdiv_lt_0_compat; [dec; lra|exact Ht].
Qed.
Print Assumptions C07_none_dP_refuted.

(** The shift named by each QFM+n buffer *)
Definition builtin_shift (b : Z) : R :=
  match b with
  | 6%Z => 3 | 7%Z => 2 | 8%Z => 1 | 9%Z => -1 | 10%Z => -2 | 11%Z => -3 | 12%Z => -4 | 13%Z => -5
  | 14%Z => -6 | 15%Z => -7 | 16%Z => -8 | 17%Z => -9 | 18%Z => 1/2 | 19%Z => 3/2 | _ => 0
  end.

(** C08: QFM+n is plain QFM plus n, and a user offset d on the plain buffers
    adds exactly d. *)
Theorem C08_offsets : 
  (forall d t p b, (6 <= b <= 19)%Z -> log10fo2 d t p b = log10fo2 0 t p 3 + builtin_shift b) /\
  (forall d t p b, (1 <= b <= 5)%Z -> log10fo2 d t p b = log10fo2 0 t p b + d).
Proof.
  split; intros d t p b Hb.
  - bufcase b; try lia; cbn [log10fo2 builtin_shift]; dec; lra.
  - bufcase b; try lia; cbn [log10fo2]; dec; lra.
Qed.
Print Assumptions C08_offsets.

(** C08 is false in one respect: on a QFM+n buffer the user offset is ignored. *)
Theorem C08_user_offset_on_QFMn_refuted : forall d t p b, (6 <= b <= 19)%Z -> d <> 0 ->
  log10fo2 d t p b <> log10fo2 0 t p b + d.
Proof.
  intros d t p b Hb Hd. destruct C08_offsets as [H _].
  rewrite (H d t p b Hb), (H 0 t p b Hb). lra.
Qed.
Print Assumptions C08_user_offset_on_QFMn_refuted.

(** log10 fO2 implied by the settings *)
Definition run_fo2 (s : settings) (t p : R) : R := log10fo2 (Q2R (this (fo2Delta s))) t p (fo2Path s).

(** C24, true part: with a plain buffer the reloaded run has the same fO2 everywhere *)
Theorem C24_plain_buffers_partial : forall sol mw ttl s av s0,
  table_ok sol -> printable mw s -> has nl ttl = false ->
  (0 <= fo2Path s <= 5)%Z -> (assimMass s <= 0)%Qc -> length (incSol s) = nphases sol ->
  exists s' av', load sol mw s0 (save_text sol mw ttl s av) = Some (s', av') /\
    forall t p, run_fo2 s' t p = run_fo2 s t p.
Proof.
  intros sol mw ttl s av s0 A B C D E F.
  destruct (C23_save_load_roundtrip sol mw ttl s av s0 A B C D E F) as (s' & L & S & _).
  eexists s', _. split; [exact L|]. intros t p. unfold run_fo2, same_settings in *.
  destruct S as (_ & _ & _ & _ & P & Dl & _). now rewrite P, Dl.
Qed.
(** the same as a property of its own (C102) *)
Theorem C102_plain_buffer_reloads : forall sol mw ttl s av s0,
  table_ok sol -> printable mw s -> has nl ttl = false ->
  (0 <= fo2Path s <= 5)%Z -> (assimMass s <= 0)%Qc -> length (incSol s) = nphases sol ->
  exists s' av', load sol mw s0 (save_text sol mw ttl s av) = Some (s', av') /\
    forall t p, run_fo2 s' t p = run_fo2 s t p.
Proof. exact C24_plain_buffers_partial. Qed.
Print Assumptions C24_plain_buffers_partial.

(** C24 is false: with QFM+n the reloaded fO2 is off by (user offset - n) at
    every T and P; e.g. by -n when no user offset is set. *)
Theorem C24_builtin_offset_refuted : forall sol mw ttl s av s0,
  table_ok sol -> printable mw s -> has nl ttl = false ->
  (6 <= fo2Path s <= 19)%Z -> (assimMass s <= 0)%Qc -> length (incSol s) = nphases sol ->
  exists s' av', load sol mw s0 (save_text sol mw ttl s av) = Some (s', av') /\
    forall t p, run_fo2 s' t p - run_fo2 s t p = Q2R (this (fo2Delta s)) - builtin_shift (fo2Path s).
Proof.
  intros sol mw ttl s av s0 A B C D E F.
  destruct (C24_builtin_offset_lost sol mw ttl s av s0 A B C D E F) as (s' & av' & L & P & Dl).
  exists s', av'. split; [exact L|]. intros t p. unfold run_fo2. rewrite P, Dl.
  destruct C08_offsets as [H1 H2]. rewrite (H1 _ t p (fo2Path s) D), (H2 _ t p 3%Z) by lia. lra.
Qed.
Print Assumptions C24_builtin_offset_refuted.
Theorem C24_witness : exists s' av',
  load ex_sol ex_mw (ex_run 0) (save_text ex_sol ex_mw (lit "run"%string) (ex_run 6) []) = Some (s', av') /\
  forall t p, run_fo2 s' t p - run_fo2 (ex_run 6) t p = 3/10 - 3.
Proof.
  destruct ex_run_printable as (A & B & C).
  destruct (C24_builtin_offset_refuted ex_sol ex_mw (lit "run"%string) (ex_run 6) [] (ex_run 0))
    as (s' & av' & L & H); auto.
  - exact table_ok_melts.
  - cbn; lia.
  - exists s', av'. split; [exact L|]. intros t p. rewrite H. cbn. dec. lra.
Qed.
