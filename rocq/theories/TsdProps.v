(** Properties C01-C03: thread-specific storage (sources/mthread.c). *)
From Coq Require Import List Bool Arith Lia.
From Verif Require Import TsdModel TsdSpec TsdProofs.
Import ListNotations.

(** C01, C02. For every sequence of calls with legal thread numbers and keys
    inside the table, every answer is the one prescribed by the history-level
    specification [expected]: a get returns what that thread last set and has
    not cleaned up, keys are handed out in order without ever being reused,
    creation fails exactly when 512 keys exist, set succeeds exactly on created
    keys, cleanup calls each key's destructor exactly once on exactly the
    values then held. *)
Theorem C01_tsd_refines_history_spec : forall os,
  Forall safe os -> run init os = answers [] os.
Proof. intros os H. exact (run_refines os [] init inv_init H). Qed.
Print Assumptions C01_tsd_refines_history_spec.

(** C01: a get after any history returns the value held *)
Theorem C01_get_returns_last_set : forall os t k,
  Forall safe os -> t < NTHREADS -> k < NKEYS ->
  snd (step (final init os) (Get t k)) = Value (held (rev os) t k).
Proof. intros os t k H Ht Hk. exact (next_answer os (Get t k) H (conj Ht Hk)). Qed.
Print Assumptions C01_get_returns_last_set.

(** C01, isolation: operations of other threads, or on other keys, do not
    change what a get returns *)
Theorem C01_isolation : forall os o t k,
  Forall safe os -> safe o -> t < NTHREADS -> k < NKEYS ->
  (forall v, o <> Set_ t k v) -> o <> Cleanup t ->
  snd (step (final init (os ++ [o])) (Get t k)) = snd (step (final init os) (Get t k)).
Proof.
  intros os o t k Hs Ho Ht Hk Hne Hnc.
  rewrite !C01_get_returns_last_set; auto.
  2:{ apply Forall_app; auto. }
  rewrite rev_app_distr. cbn [rev app]. f_equal. destruct o as [d|i j v|i j|i]; cbn [held]; auto.
  - destruct (Nat.eqb_spec i t) as [->|]; [|reflexivity].
    destruct (Nat.eqb_spec j k) as [->|]; [|reflexivity]. exfalso. now apply (Hne v).
  - destruct (Nat.eqb_spec i t) as [->|]; [|reflexivity]. now exfalso.
Qed.
Print Assumptions C01_isolation.

(** C02: a key obtained once is never returned again, whatever happens between *)
Lemma nkeys_mono a b : nkeys b <= nkeys (a ++ b).
Proof.
  induction a as [|o a IH]; [apply le_n|]. destruct o; cbn [app nkeys]; try exact IH.
  destruct (nkeys (a ++ b) <? NKEYS); [apply Nat.le_trans with (1 := IH); auto|exact IH].
Qed.
Theorem C02_keys_never_reused : forall os1 os2 d1 d2 k1 k2,
  Forall safe (os1 ++ Create d1 :: os2) ->
  snd (step (final init os1) (Create d1)) = Key k1 ->
  snd (step (final init (os1 ++ Create d1 :: os2)) (Create d2)) = Key k2 ->
  k1 <> k2.
Proof.
  intros os1 os2 d1 d2 k1 k2 Hs H1 H2.
  assert (Hs1 : Forall safe os1) by (apply Forall_app in Hs; tauto).
  rewrite next_answer in H1 by (auto; exact I). rewrite next_answer in H2 by (auto; exact I).
  cbn [expected] in *.
  destruct (nkeys (rev os1) <? NKEYS) eqn:L1; [|discriminate].
  match type of H2 with (if ?c then _ else _) = _ => destruct c; [|discriminate] end.
  injection H1 as <-. injection H2 as <-.
  rewrite rev_app_distr. cbn [rev]. rewrite <- app_assoc. cbn [app].
  pose proof (nkeys_mono (rev os2) (Create d1 :: rev os1)) as M. cbn [nkeys] in M. rewrite L1 in M. lia.
Qed.
Print Assumptions C02_keys_never_reused.

(** C02: creation fails exactly when 512 earlier creations succeeded; a created
    key accepts sets for ever *)
Theorem C02_create_fails_iff_full : forall os d,
  Forall safe os ->
  (snd (step (final init os) (Create d)) = EAGAIN <-> nkeys (rev os) = NKEYS).
Proof.
  intros os d Hs. rewrite next_answer by (auto; exact I). cbn [expected].
  pose proof (inv_lt _ _ (final_inv os [] init inv_init Hs)) as L. rewrite app_nil_r in L.
  destruct (Nat.ltb_spec (nkeys (rev os)) NKEYS); split; intro; try discriminate; try lia; auto.
Qed.
Print Assumptions C02_create_fails_iff_full.

Theorem C02_key_stays_valid : forall os1 os2 d k t v,
  Forall safe (os1 ++ Create d :: os2) -> t < NTHREADS ->
  snd (step (final init os1) (Create d)) = Key k ->
  snd (step (final init (os1 ++ Create d :: os2)) (Set_ t k v)) = OK.
Proof.
  intros os1 os2 d k t v Hs Ht H1.
  assert (Hs1 : Forall safe os1) by (apply Forall_app in Hs; tauto).
  rewrite next_answer in H1 by (auto; exact I). rewrite next_answer by auto. cbn [expected] in *.
  destruct (nkeys (rev os1) <? NKEYS) eqn:L1; [|discriminate]. injection H1 as <-.
  rewrite rev_app_distr. cbn [rev]. rewrite <- app_assoc. cbn [app].
  pose proof (nkeys_mono (rev os2) (Create d :: rev os1)) as M. cbn [nkeys] in M. rewrite L1 in M.
  destruct (Nat.ltb_spec (nkeys (rev os1)) (nkeys (rev os2 ++ Create d :: rev os1))); [reflexivity|lia].
Qed.
Print Assumptions C02_key_stays_valid.

(** C02: what cleanup destroys; a second cleanup destroys nothing *)
Theorem C02_cleanup_destroys_held_values : forall os t,
  Forall safe os -> t < NTHREADS ->
  snd (step (final init os) (Cleanup t)) =
    Destroyed (flat_map (fun k => match held (rev os) t k, destr_of (rev os) k with
                                  | Some p, Some f => [(f, p)] | _, _ => [] end)
                        (seq 0 (nkeys (rev os)))) /\
  snd (step (final init (os ++ [Cleanup t])) (Cleanup t)) = Destroyed [].
Proof.
  intros os t Hs Ht. split.
  - exact (next_answer os (Cleanup t) Hs Ht).
  - rewrite next_answer; [|apply Forall_app; auto|exact Ht].
    rewrite rev_app_distr. cbn [rev app expected nkeys]. f_equal.
    induction (seq 0 (nkeys (rev os))) as [|k l IH]; [reflexivity|].
    cbn [flat_map]. rewrite IH. cbn [held]. rewrite Nat.eqb_refl. reflexivity.
Qed.
Print Assumptions C02_cleanup_destroys_held_values.

(** the initialiser guarded by MTHREAD_ONCE runs exactly once however often it is requested *)
Theorem C02_once_runs_once : forall n, 0 < n -> Nat.iter n once (false, 0) = (true, 1).
Proof. intros n H. exact (once_iter n (false, 0) eq_refl H). Qed.
Print Assumptions C02_once_runs_once.

Definition ex_ops : list op :=
  [Create (Some 7); Create None; Set_ 3 0 (Some 11); Set_ 4 0 (Some 12); Set_ 3 1 (Some 13);
   Set_ 3 0 (Some 14); Get 3 0; Get 4 0; Cleanup 3; Get 3 0; Get 4 0; Set_ 3 2 (Some 1)].
Example ex_ops_safe : Forall safe ex_ops.
Proof. repeat constructor; cbn; lia. Qed.
Example ex_ops_run : run init ex_ops =
  [Key 0; Key 1; OK; OK; OK; OK; Value (Some 14); Value (Some 12); Destroyed [(7, 14)];
   Value None; Value (Some 12); EINVAL].
Proof. vm_compute. reflexivity. Qed.

(** C03 is false of the code: a get with a key outside the table reads outside
    the array before the key is checked. *)
Theorem C03_get_out_of_range_refuted :
  forall t tid key, NKEYS <= key -> snd (step t (Get tid key)) = UB.
Proof.
  intros t tid key H. cbn [step snd]. unfold get_specific.
  destruct (Nat.ltb_spec key NKEYS); [lia|reflexivity].
Qed.
Print Assumptions C03_get_out_of_range_refuted.
(** ... while inside the table no call with a legal thread number touches other memory *)
Theorem C03_in_range_safe : forall os o, Forall safe os -> safe o ->
  snd (step (final init os) o) <> UB.
Proof.
  intros os o Hs Ho. rewrite next_answer by auto. destruct o; cbn [expected];
    try (destruct (_ <? _)); discriminate.
Qed.
Print Assumptions C03_in_range_safe.
