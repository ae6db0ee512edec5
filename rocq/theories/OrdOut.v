(** The outputs of gmix, smix, cpmix, vmix and order as total derivatives. *)
From Coq Require Import Reals QArith Qreals ZArith NArith Arith List Lia Lra Bool FunctionalExtensionality.
From Coquelicot Require Import Coquelicot.
From Verif Require Import RealTac Sym SymNorm SymPath SolnModel SolnSpec LaSpec OrdLimits OrdModel OrdCheck OrdSpec OrdProofs.
Import List ListNotations.
Local Open Scope R_scope.

Lemma rot3 n (f : nat -> nat -> nat -> R) :
  sum n (fun k => sum n (fun l => sum n (fun m => f k l m))) = sum n (fun k => sum n (fun l => sum n (fun m => f m k l))).
Proof.
  rewrite (sumx n (fun k => sum n (fun l => sum n (fun m => f m k l))) (fun k => sum n (fun m => sum n (fun l => f m k l)))) by (intros; apply sum_swp).
  rewrite (sum_swp n n (fun k m => sum n (fun l => f m k l))). reflexivity.
Qed.

Section Out.
Variable ph : ordPhase.
Hypothesis C0 : check0 ph = true.
Hypothesis C1 : check1 ph = true.
Hypothesis C2 : check2 ph = true.
Hypothesis C3 : check3 ph = true.
Variable sv : R -> R -> (nat -> R) -> nat -> R.
Variable slv : R -> R -> (nat -> R) -> vec -> vec.
Variable D : R -> R -> (nat -> R) -> Prop.
Hypothesis Or : ordered ph sv slv D.
Notation NS := (o_ns ph).
Notation q2 := (Q2 ph sv slv).
Notation q3 := (Q3 ph sv slv).
Notation full := (Full ph sv slv).
Notation e1 := (fun o q => E ph sv q (d1 ph o)).
Notation ES := (OrdProofs.E ph sv).

Lemma Q2_sym o o' q : valid ph o -> valid ph o' -> at3 D q -> q2 o o' q = q2 o' o q.
Proof.
  intros V V' Hq. unfold Q2. rewrite (sym2 ph C2 sv slv D Or q o o' Hq V V'). f_equal. rewrite !split2. f_equal.
  - apply sumx. intros. ring.
  - apply symm2. intros k l Hk Hl. rewrite (sym2 ph C2 sv slv D Or q (vS l) (vS k)) by (auto; exact Hk || exact Hl). ring.
Qed.
Lemma Q3_rot o1 o2 o3 q : valid ph o1 -> valid ph o2 -> valid ph o3 -> at3 D q -> q3 o1 o2 o3 q = q3 o2 o3 o1 q.
Proof.
  intros V1 V2 V3 Hq. unfold Q3. rewrite (sym3a ph C3 sv slv D Or q o1 o2 o3), (sym3b ph C3 sv slv D Or q o2 o1 o3) by auto. f_equal.
  rewrite !split3. f_equal; [f_equal|].
  - apply sumx. intros. ring.
  - apply cong2. intros. ring.
  - rewrite rot3. apply cong3. intros k l m Hk Hl Hm.
    rewrite (sym3a ph C3 sv slv D Or q (vS m) (vS k) (vS l)), (sym3b ph C3 sv slv D Or q (vS k) (vS m) (vS l)) by (auto; exact Hk || exact Hl || exact Hm). ring.
Qed.

Section At.
Variables (t p : R) (r : nat -> R).
Hypothesis Hq : D t p r.
Notation q := (t, p, r).
Lemma Hq' : at3 D q. Proof. exact Hq. Qed.
Lemma sym_ss k l : (k < NS)%nat -> (l < NS)%nat -> ev ph sv t p r (nth2 (o_ss ph) l k) = ev ph sv t p r (nth2 (o_ss ph) k l).
Proof. intros Hk Hl. exact (sym2 ph C2 sv slv D Or q (vS l) (vS k) Hq' Hl Hk). Qed.
Lemma sym_sst k l : (k < NS)%nat -> (l < NS)%nat -> ev ph sv t p r (nth2 (o_sst ph) l k) = ev ph sv t p r (nth2 (o_sst ph) k l).
Proof. intros Hk Hl. exact (sym3b ph C3 sv slv D Or q vT (vS l) (vS k) Hq' I Hl Hk). Qed.
Lemma sym_ssp k l : (k < NS)%nat -> (l < NS)%nat -> ev ph sv t p r (nth2 (o_ssp ph) l k) = ev ph sv t p r (nth2 (o_ssp ph) k l).
Proof. intros Hk Hl. exact (sym3b ph C3 sv slv D Or q vP (vS l) (vS k) Hq' I Hl Hk). Qed.
Lemma sym_rss i k l : (i < o_nr ph)%nat -> (k < NS)%nat -> (l < NS)%nat -> ev ph sv t p r (nth3 (o_rss ph) i l k) = ev ph sv t p r (nth3 (o_rss ph) i k l).
Proof. intros Hi Hk Hl. exact (sym3b ph C3 sv slv D Or q (vR i) (vS l) (vS k) Hq' Hi Hl Hk). Qed.
Lemma d2sdt2_s2 : d2sdt2 ph sv slv t p r = fun j => s2 ph sv slv vT vT q j.
Proof.
  apply functional_extensionality. intros j. unfold d2sdt2, s2. apply (f_equal (fun b => slv t p r b j)). apply functional_extensionality. intros l.
  change (ev ph sv t p r (nth1 (o_stt ph) l) + sum NS (fun k => 2 * v2 ph sv t p r (o_sst ph) l k * dsdt ph sv slv t p r k + sum NS (fun m => v3 ph sv t p r (o_sss ph) l k m * dsdt ph sv slv t p r k * dsdt ph sv slv t p r m))
   = ev ph sv t p r (nth1 (o_stt ph) l) + sum NS (fun m => v2 ph sv t p r (o_sst ph) l m * dsdt ph sv slv t p r m + v2 ph sv t p r (o_sst ph) l m * dsdt ph sv slv t p r m + sum NS (fun n => v3 ph sv t p r (o_sss ph) l m n * dsdt ph sv slv t p r m * dsdt ph sv slv t p r n))).
  f_equal. apply sumx. intros. f_equal. ring.
Qed.
Lemma d2sdp2_s2 : d2sdp2 ph sv slv t p r = fun j => s2 ph sv slv vP vP q j.
Proof.
  apply functional_extensionality. intros j. unfold d2sdp2, s2. apply (f_equal (fun b => slv t p r b j)). apply functional_extensionality. intros l.
  change (ev ph sv t p r (nth1 (o_spp ph) l) + sum NS (fun k => 2 * v2 ph sv t p r (o_ssp ph) l k * dsdp ph sv slv t p r k + sum NS (fun m => v3 ph sv t p r (o_sss ph) l k m * dsdp ph sv slv t p r k * dsdp ph sv slv t p r m))
   = ev ph sv t p r (nth1 (o_spp ph) l) + sum NS (fun m => v2 ph sv t p r (o_ssp ph) l m * dsdp ph sv slv t p r m + v2 ph sv t p r (o_ssp ph) l m * dsdp ph sv slv t p r m + sum NS (fun n => v3 ph sv t p r (o_sss ph) l m n * dsdp ph sv slv t p r m * dsdp ph sv slv t p r n))).
  f_equal. apply sumx. intros. f_equal. ring.
Qed.
(** s2 is symmetric in its directions *)
Lemma s2_sym o o' : valid ph o -> valid ph o' -> forall k, (k < NS)%nat -> s2 ph sv slv o o' q k = s2 ph sv slv o' o q k.
Proof.
  intros V V' k Hk. destruct (regularH ph sv slv D Or q Hq') as (B & Iv).
  rewrite (inverse_solve NS _ B _ _ Iv (fun i Hi => E2 ph C0 sv slv D Or o o' q i Hq' Hi) k Hk).
  rewrite (inverse_solve NS _ B _ _ Iv (fun i Hi => E2 ph C0 sv slv D Or o' o q i Hq' Hi) k Hk).
  apply sumx. intros i Hi. do 2 f_equal. unfold rhs2. rewrite (sym3a ph C3 sv slv D Or q o o' (vS i)) by (auto; exact Hq || exact Hi). f_equal. rewrite !split2. f_equal.
  - apply sumx. intros. ring.
  - apply symm2. intros l m Hl Hm. rewrite (sym3b ph C3 sv slv D Or q (vS i) (vS m) (vS l)) by (auto; exact Hq || exact Hi || exact Hl || exact Hm). ring.
Qed.

Ltac fold_states :=
  rewrite ?d2sdt2_s2, ?d2sdp2_s2;
  change (dsdr ph sv slv t p r) with (fun k j => s1 ph sv slv (vR j) q k);
  change (dsdt ph sv slv t p r) with (fun k => s1 ph sv slv vT q k);
  change (dsdp ph sv slv t p r) with (fun k => s1 ph sv slv vP q k);
  change (d2sdr2 ph sv slv t p r) with (fun l j k => s2 ph sv slv (vR j) (vR k) q l);
  change (d2sdrdt ph sv slv t p r) with (fun k j => s2 ph sv slv (vR j) vT q k);
  change (d2sdrdp ph sv slv t p r) with (fun k j => s2 ph sv slv (vR j) vP q k);
  change (d2sdtdp ph sv slv t p r) with (fun k => s2 ph sv slv vT vP q k);
  unfold v1, v2, v3;
  change (OrdProofs.E ph sv (t, p, r)) with (ev ph sv t p r);
  cbv beta; cbn [d2 d3].
Ltac syms k l Hk Hl := rewrite ?(sym_ss k l Hk Hl), ?(sym_sst k l Hk Hl), ?(sym_ssp k l Hk Hl), ?(fun i Hi => sym_rss i k l Hi Hk Hl) by assumption.
Ltac shape2 := apply f_equal; rewrite !split2; apply f_equal2; [apply sumx; intros; ring|apply symm2; intros ? ? ? ?].
Ltac shape3 := apply f_equal; rewrite !split3; apply f_equal2; [apply f_equal2|].

Lemma out_dx2 i j : og_dx2 ph sv slv t p r i j = q2 (vR i) (vR j) q. Proof. reflexivity. Qed.
Lemma out_dx3 i j k : og_dx3 ph sv slv t p r i j k = q3 (vR i) (vR j) (vR k) q. Proof. reflexivity. Qed.
Lemma out_s_dx i : os_dx ph sv slv t p r i = - q2 vT (vR i) q.
Proof.
  unfold os_dx, Q2. fold_states. match goal with |- ?a * -1 = - ?b => assert (H : a = b); [|rewrite H; ring] end.
  apply f_equal. apply sumx. intros. ring.
Qed.
Lemma out_s_dx2 i j : (i < o_nr ph)%nat -> (j < o_nr ph)%nat -> os_dx2 ph sv slv t p r i j = - full (vR i) (vR j) vT q.
Proof.
  intros Hi Hj. unfold os_dx2, Full. fold_states. match goal with |- ?a * -1 = - ?b => assert (H : a = b); [|rewrite H; ring] end.
  destruct (o_swap ph); shape3.
  - apply sumx. intros. ring.
  - apply symm2. intros k l Hk Hl. syms k l Hk Hl. ring.
  - reflexivity.
  - apply sumx. intros. ring.
  - apply symm2. intros k l Hk Hl. syms k l Hk Hl. ring.
  - reflexivity.
Qed.
Lemma out_hess : hessTT ph sv slv t p r = q2 vT vT q.
Proof. unfold hessTT, Q2. fold_states. apply f_equal. apply sumx. intros. ring. Qed.
Lemma out_c_dt : oc_dt ph sv slv t p r = - t * full vT vT vT q - q2 vT vT q.
Proof.
  unfold oc_dt. rewrite out_hess. f_equal. f_equal. unfold Full. fold_states. shape3.
  - apply sumx. intros. ring.
  - apply symm2. intros k l Hk Hl. syms k l Hk Hl. ring.
  - reflexivity.
Qed.
Lemma out_c_dx i : (i < o_nr ph)%nat -> oc_dx ph sv slv t p r i = - t * full (vR i) vT vT q.
Proof.
  intros Hi. unfold oc_dx. rewrite Rmult_comm. apply f_equal. unfold Full. fold_states. shape3.
  - apply sumx. intros. ring.
  - apply symm2. intros k l Hk Hl. syms k l Hk Hl. ring.
  - reflexivity.
Qed.
Lemma out_v_dx i : ov_dx ph sv slv t p r i = q2 vP (vR i) q.
Proof. unfold ov_dx, Q2. fold_states. apply f_equal. apply sumx. intros. ring. Qed.
Lemma out_v_dx2 i j : (i < o_nr ph)%nat -> (j < o_nr ph)%nat -> ov_dx2 ph sv slv t p r i j = full (vR i) (vR j) vP q.
Proof.
  intros Hi Hj. unfold ov_dx2, Full. fold_states. shape3.
  - apply sumx. intros. ring.
  - apply symm2. intros k l Hk Hl. syms k l Hk Hl. ring.
  - reflexivity.
Qed.
Lemma out_v_dt : ov_dt ph sv slv t p r = q2 vT vP q. Proof. reflexivity. Qed.
Lemma out_v_dp : ov_dp ph sv slv t p r = q2 vP vP q.
Proof. unfold ov_dp, Q2. fold_states. apply f_equal. apply sumx. intros. ring. Qed.
Lemma out_v_dt2 : ov_dt2 ph sv slv t p r = full vT vT vP q.
Proof.
  unfold ov_dt2, Full. fold_states. shape3.
  - apply sumx. intros. ring.
  - apply symm2. intros k l Hk Hl. syms k l Hk Hl. ring.
  - reflexivity.
Qed.
Lemma out_v_dtdp : ov_dtdp ph sv slv t p r = full vT vP vP q.
Proof.
  unfold ov_dtdp, Full. fold_states. shape3.
  - apply sumx. intros. ring.
  - apply symm2. intros k l Hk Hl. syms k l Hk Hl. ring.
  - reflexivity.
Qed.
Lemma out_v_dp2 : ov_dp2 ph sv slv t p r = full vP vP vP q.
Proof.
  unfold ov_dp2, Full. fold_states. shape3.
  - apply sumx. intros. ring.
  - apply symm2. intros k l Hk Hl. syms k l Hk Hl. ring.
  - reflexivity.
Qed.
Lemma out_v_dxdt i : (i < o_nr ph)%nat -> ov_dxdt ph sv slv t p r i = full (vR i) vT vP q.
Proof.
  intros Hi. unfold ov_dxdt, Full. fold_states. shape3.
  - apply sumx. intros. ring.
  - apply symm2. intros k l Hk Hl. syms k l Hk Hl. ring.
  - reflexivity.
Qed.
Lemma out_v_dxdp i : (i < o_nr ph)%nat -> ov_dxdp ph sv slv t p r i = full (vR i) vP vP q.
Proof.
  intros Hi. unfold ov_dxdp, Full. fold_states. shape3.
  - apply sumx. intros. ring.
  - apply symm2. intros k l Hk Hl. syms k l Hk Hl. ring.
  - reflexivity.
Qed.
End At.
End Out.
