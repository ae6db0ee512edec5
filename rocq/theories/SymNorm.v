(** A verified normal form for [Sym] expressions: Laurent polynomials in the
    variables, the site fractions and the logarithms of the site fractions. *)
From Coq Require Import Reals QArith Qreals ZArith NArith List Lia Lra Bool.
From Coquelicot Require Import Coquelicot.
From Verif Require Import Sym.
Import ListNotations.
Local Open Scope R_scope.

(** atom 3n: variable n; 3k+1: site k; 3k+2: log of site k *)
Definition mono : Type := list (N * Z).
Definition poly : Type := list (mono * Q).

Section Norm.
Variable ss : list site.
Variable pos : list N.
(** (a, b, c, d): site a * site d = site b * site c, so log a = log b + log c - log d *)
Variable rels : list (N * N * N * N).

(** ** Monomials *)
Fixpoint mmul (a : mono) : mono -> mono :=
  match a with
  | [] => fun b => b
  | (n, z) :: a' =>
    fix go (b : mono) : mono :=
      match b with
      | [] => a
      | (m, w) :: b' =>
        match N.compare n m with
        | Lt => (n, z) :: mmul a' b
        | Gt => (m, w) :: go b'
        | Eq => let s := (z + w)%Z in if Z.eqb s 0 then mmul a' b' else (n, s) :: mmul a' b'
        end
      end
  end.
Fixpoint mcmp (a b : mono) : comparison :=
  match a, b with
  | [], [] => Eq
  | [], (_, w) :: _ => if Z.ltb 0 w then Lt else Gt
  | (_, z) :: _, [] => if Z.ltb 0 z then Gt else Lt
  | (n, z) :: a', (m, w) :: b' =>
    match N.compare n m with
    | Lt => if Z.ltb 0 z then Gt else Lt
    | Gt => if Z.ltb 0 w then Lt else Gt
    | Eq => match Z.compare z w with Eq => mcmp a' b' | c => c end
    end
  end.
Definition minv (a : mono) : mono := map (fun p => (fst p, (- snd p)%Z)) a.

(** ** Polynomials *)
Fixpoint padd (p : poly) : poly -> poly :=
  match p with
  | [] => fun q => q
  | (a, c) :: p' =>
    fix go (q : poly) : poly :=
      match q with
      | [] => p
      | (b, d) :: q' =>
        match mcmp a b with
        | Gt => (a, c) :: padd p' q
        | Lt => (b, d) :: go q'
        | Eq => let s := Qred (c + d) in if Z.eqb (Qnum s) 0 then padd p' q' else (a, s) :: padd p' q'
        end
      end
  end.
Definition pscale (a : mono) (c : Q) (p : poly) : poly := map (fun t => (mmul a (fst t), Qred (c * snd t))) p.
Fixpoint pmul (p q : poly) : poly :=
  match p with [] => [] | (a, c) :: p' => padd (pscale a c q) (pmul p' q) end.
Definition pneg (p : poly) : poly := map (fun t => (fst t, Qopp (snd t))) p.
Definition pnum (q : Q) : poly := if Z.eqb (Qnum q) 0 then [] else [([], Qred q)].
Definition patom (n : N) : poly := [([(n, 1%Z)], 1%Q)].

(** may the atom be divided by? *)
Definition atomOk (n : N) : bool :=
  match N.modulo n 3 with
  | 0%N => isPos pos (N.div n 3)
  | 1%N => isSite ss (N.div n 3)
  | _ => false
  end.
Definition monoOk (a : mono) : bool := forallb (fun p => atomOk (fst p)) a.

Fixpoint norm (x : expr) : option poly :=
  match x with
  | Num q => Some (pnum q)
  | Var n => Some (patom (3 * n))
  | Site k => Some (patom (3 * k + 1))
  | Log k => Some (patom (3 * k + 2))
  | Add a b => match norm a, norm b with Some p, Some q => Some (padd p q) | _, _ => None end
  | Sub a b => match norm a, norm b with Some p, Some q => Some (padd p (pneg q)) | _, _ => None end
  | Mul a b => match norm a, norm b with Some p, Some q => Some (pmul p q) | _, _ => None end
  | Neg a => match norm a with Some p => Some (pneg p) | None => None end
  | Div a b => match norm a, norm b with
               | Some p, Some [(m, c)] => if monoOk m && negb (Z.eqb (Qnum c) 0) then Some (pscale (minv m) (Qinv c) p) else None
               | _, _ => None end
  end.

(** ** Meaning *)
Section At.
Variable e : env.
Hypothesis Ins : inside ss pos e.
Definition atomVal (n : N) : R :=
  match N.modulo n 3 with
  | 0%N => e (N.div n 3)
  | 1%N => rawVal e (raw (nth_site ss (N.div n 3)))
  | _ => ln (rawVal e (raw (nth_site ss (N.div n 3))))
  end.
Fixpoint mval (a : mono) : R := match a with [] => 1 | (n, z) :: a' => powerRZ (atomVal n) z * mval a' end.
Fixpoint pval (p : poly) : R := match p with [] => 0 | (a, c) :: p' => Q2R c * mval a + pval p' end.
(** negative exponents only on atoms that are not zero *)
Definition mwf (a : mono) : Prop := List.Forall (fun p => (snd p < 0)%Z -> atomVal (fst p) <> 0) a.
Definition pwf (p : poly) : Prop := List.Forall (fun t => mwf (fst t)) p.

Lemma powerRZ_add' x z w : ((z < 0)%Z -> x <> 0) -> ((w < 0)%Z -> x <> 0) -> powerRZ x (z + w) = powerRZ x z * powerRZ x w.
Proof.
  intros Hz Hw. destruct (Req_dec x 0) as [E|E]; [|now apply powerRZ_add].
  assert (0 <= z)%Z by (destruct (Z.lt_ge_cases z 0); [now elim (Hz H)|auto]).
  assert (0 <= w)%Z by (destruct (Z.lt_ge_cases w 0); [now elim (Hw H0)|auto]).
  rewrite <- (Z2Nat.id z), <- (Z2Nat.id w) by auto. rewrite <- Nat2Z.inj_add, <- !pow_powerRZ. apply pow_add.
Qed.
Lemma mmul_unf n z a' m w b' : mmul ((n, z) :: a') ((m, w) :: b') =
  match N.compare n m with
  | Lt => (n, z) :: mmul a' ((m, w) :: b')
  | Gt => (m, w) :: mmul ((n, z) :: a') b'
  | Eq => let s := (z + w)%Z in if Z.eqb s 0 then mmul a' b' else (n, s) :: mmul a' b'
  end.
Proof. reflexivity. Qed.
Lemma mmul_nil a : mmul a [] = a.
Proof. destruct a as [|[n z] a]; reflexivity. Qed.
Lemma mmul_ok a : forall b, mwf a -> mwf b -> mval (mmul a b) = mval a * mval b /\ mwf (mmul a b).
Proof.
  induction a as [|[n z] a IHa]; intros b Wa Wb; [cbn; split; [ring|auto]|].
  induction b as [|[m w] b IHb]; [rewrite mmul_nil; cbn; split; [ring|auto]|].
  rewrite mmul_unf. inversion_clear Wa as [|? ? Wz Wa']. inversion_clear Wb as [|? ? Ww Wb']. cbn in Wz, Ww.
  destruct (N.compare_spec n m) as [E|L|G].
  - subst m. destruct (IHa b Wa' Wb') as [E W]. pose proof (powerRZ_add' (atomVal n) z w Wz Ww) as PA.
    cbv zeta. destruct (Z.eqb_spec (z + w) 0) as [E0|N0].
    + rewrite E0 in PA. cbn in PA. split; auto. cbn. rewrite E. transitivity ((powerRZ (atomVal n) z * powerRZ (atomVal n) w) * (mval a * mval b)); [rewrite <- PA|]; ring.
    + split.
      * cbn [mval]. rewrite E, PA. ring.
      * constructor; auto. cbn. intros S. destruct (Z.lt_ge_cases z 0); auto. apply Ww. lia.
  - destruct (IHa ((m, w) :: b) Wa') as [E W]; [constructor; auto|]. split.
    + cbn [mval] in *. rewrite E. ring.
    + constructor; auto.
  - destruct IHb as [E W]; auto. split.
    + cbn [mval] in *. rewrite E. ring.
    + constructor; auto.
Qed.
Lemma mcmp_eq a : forall b, mcmp a b = Eq -> a = b.
Proof.
  induction a as [|[n z] a IH]; intros [|[m w] b]; cbn; auto; try (destruct (Z.ltb _ _); discriminate).
  destruct (N.compare_spec n m); try (destruct (Z.ltb _ _); discriminate).
  destruct (Z.compare_spec z w); try discriminate. intros Q. subst. f_equal. now apply IH.
Qed.
Lemma Q2R_red c : Q2R (Qred c) = Q2R c.
Proof. apply Qeq_eqR. apply Qred_correct. Qed.
Lemma Qnum0 c : Z.eqb (Qnum c) 0 = true -> Q2R c = 0.
Proof. intros H. apply Z.eqb_eq in H. unfold Q2R. rewrite H. ring. Qed.
Lemma padd_unf a c p' b d q' : padd ((a, c) :: p') ((b, d) :: q') =
  match mcmp a b with
  | Gt => (a, c) :: padd p' ((b, d) :: q')
  | Lt => (b, d) :: padd ((a, c) :: p') q'
  | Eq => let s := Qred (c + d) in if Z.eqb (Qnum s) 0 then padd p' q' else (a, s) :: padd p' q'
  end.
Proof. reflexivity. Qed.
Lemma padd_nil p : padd p [] = p.
Proof. destruct p as [|[a c] p]; reflexivity. Qed.
Lemma padd_ok p : forall q, pwf p -> pwf q -> pval (padd p q) = pval p + pval q /\ pwf (padd p q).
Proof.
  induction p as [|[a c] p IHp]; intros q Wp Wq; [cbn; split; [ring|auto]|].
  induction q as [|[b d] q IHq]; [rewrite padd_nil; cbn; split; [ring|auto]|].
  rewrite padd_unf. inversion_clear Wp as [|? ? Wa Wp']. inversion_clear Wq as [|? ? Wb Wq'].
  destruct (mcmp a b) eqn:C.
  - apply mcmp_eq in C. subst b. destruct (IHp q Wp' Wq') as [E W]. cbv zeta.
    assert (S : Q2R (Qred (c + d)) = Q2R c + Q2R d) by (rewrite Q2R_red; apply Q2R_plus).
    destruct (Z.eqb _ 0) eqn:Z0.
    + apply Qnum0 in Z0. split; auto. cbn. rewrite E. rewrite S in Z0. transitivity ((Q2R c + Q2R d) * mval a + (pval p + pval q)); [rewrite Z0|]; ring.
    + split; [cbn [pval]; rewrite E, S; ring|constructor; auto].
  - destruct IHq as [E W]; auto. split; [cbn [pval] in *; rewrite E; ring|constructor; auto].
  - destruct (IHp ((b, d) :: q) Wp') as [E W]; [constructor; auto|]. split; [cbn [pval] in *; rewrite E; ring|constructor; auto].
Qed.
Lemma pscale_ok a c p : mwf a -> pwf p -> pval (pscale a c p) = Q2R c * mval a * pval p /\ pwf (pscale a c p).
Proof.
  intros Wa. induction p as [|[b d] p IH]; intros Wp; [cbn; split; [ring|constructor]|].
  inversion_clear Wp as [|? ? Wb Wp']. destruct (IH Wp') as [E W]. destruct (mmul_ok a b Wa Wb) as [M Wm].
  split; [|constructor; auto]. cbn [pscale map pval fst snd]. fold (pscale a c p). rewrite E, M, Q2R_red, Q2R_mult. ring.
Qed.
Lemma pmul_ok p q : pwf p -> pwf q -> pval (pmul p q) = pval p * pval q /\ pwf (pmul p q).
Proof.
  intros Wp Wq. induction p as [|[a c] p IH]; [cbn; split; [ring|constructor]|].
  inversion_clear Wp as [|? ? Wa Wp']. destruct (IH Wp') as [E W]. destruct (pscale_ok a c q Wa Wq) as [S Ws].
  cbn [pmul]. destruct (padd_ok _ _ Ws W) as [A Wf]. split; auto. rewrite A, S, E. cbn. ring.
Qed.
Lemma pneg_ok p : pwf p -> pval (pneg p) = - pval p /\ pwf (pneg p).
Proof.
  induction p as [|[a c] p IH]; intros W; cbn; [split; [ring|constructor]|].
  inversion_clear W as [|? ? Wa W']. destruct (IH W') as [E Wf]. unfold pneg in E. split; [rewrite E, Q2R_opp; ring|constructor; auto].
Qed.
Lemma pnum_ok q : pval (pnum q) = Q2R q /\ pwf (pnum q).
Proof.
  unfold pnum. destruct (Z.eqb _ _) eqn:Z0.
  - rewrite (Qnum0 _ Z0). split; [reflexivity|constructor].
  - split; [cbn [pval mval]; rewrite Q2R_red; ring|]. constructor; constructor.
Qed.
Lemma patom_ok n : pval (patom n) = atomVal n /\ pwf (patom n).
Proof.
  split; [cbn [pval mval patom]; rewrite Q2R_1; change (powerRZ (atomVal n) 1) with (pow (atomVal n) 1); rewrite pow_1; ring|]. constructor; [|constructor]. constructor; [|constructor]. cbn. lia.
Qed.
Lemma atom0 n : atomVal (3 * n) = e n.
Proof. unfold atomVal. rewrite N.mul_comm, N.mod_mul, N.div_mul by lia. reflexivity. Qed.
Lemma mod1 k : N.modulo (3 * k + 1) 3 = 1%N.
Proof. rewrite N.add_comm, N.mul_comm, N.mod_add by lia. reflexivity. Qed.
Lemma mod2 k : N.modulo (3 * k + 2) 3 = 2%N.
Proof. rewrite N.add_comm, N.mul_comm, N.mod_add by lia. reflexivity. Qed.
Lemma div1 k : N.div (3 * k + 1) 3 = k.
Proof. rewrite N.add_comm, N.mul_comm, N.div_add by lia. reflexivity. Qed.
Lemma div2 k : N.div (3 * k + 2) 3 = k.
Proof. rewrite N.add_comm, N.mul_comm, N.div_add by lia. reflexivity. Qed.
Lemma atom1 k : atomVal (3 * k + 1) = rawVal e (raw (nth_site ss k)).
Proof. unfold atomVal. rewrite mod1, div1. reflexivity. Qed.
Lemma atom2 k : atomVal (3 * k + 2) = ln (rawVal e (raw (nth_site ss k))).
Proof. unfold atomVal. rewrite mod2, div2. reflexivity. Qed.
Lemma atomOk_nz n : atomOk n = true -> atomVal n <> 0.
Proof.
  unfold atomOk, atomVal. destruct (N.modulo n 3) as [|[p|p|]]; intros H; try discriminate H.
  - apply Rgt_not_eq. apply (proj2 Ins). now apply (isPos_in pos).
  - apply Rgt_not_eq. apply (raw_pos ss pos e Ins). exact H.
Qed.
Lemma minv_ok m : monoOk m = true -> mval m * mval (minv m) = 1 /\ mwf (minv m).
Proof.
  induction m as [|[n z] m IH]; cbn; [split; [ring|constructor]|]. intros H. apply andb_prop in H. destruct H as [A B].
  destruct (IH B) as [E W]. pose proof (atomOk_nz n A) as NZ. split.
  - transitivity (powerRZ (atomVal n) z * powerRZ (atomVal n) (- z) * (mval m * mval (minv m))); [unfold minv; ring|].
    rewrite E, <- powerRZ_add by auto. replace (z + - z)%Z with 0%Z by lia. cbn. ring.
  - constructor; auto.
Qed.
Lemma norm_ok x : forall p, norm x = Some p -> pval p = val1 ss e x /\ pwf p.
Proof.
  unfold val1. induction x; cbn [norm val]; intros p H.
  - injection H as <-. apply pnum_ok.
  - injection H as <-. rewrite <- atom0. apply patom_ok.
  - injection H as <-. rewrite <- atom1. apply patom_ok.
  - destruct (norm x1), (norm x2); try discriminate H. injection H as <-.
    destruct (IHx1 _ eq_refl) as [<- ?], (IHx2 _ eq_refl) as [<- ?]. now apply padd_ok.
  - destruct (norm x1), (norm x2); try discriminate H. injection H as <-.
    destruct (IHx1 _ eq_refl) as [<- ?], (IHx2 _ eq_refl) as [<- ?].
    destruct (pneg_ok p1) as [E W]; auto. destruct (padd_ok p0 (pneg p1)) as [E2 W2]; auto. split; auto. rewrite E2, E. ring.
  - destruct (norm x1), (norm x2); try discriminate H. injection H as <-.
    destruct (IHx1 _ eq_refl) as [<- ?], (IHx2 _ eq_refl) as [<- ?]. now apply pmul_ok.
  - destruct (norm x1) as [p1|], (norm x2) as [[|[m c] [|]]|]; try discriminate H.
    destruct (monoOk m) eqn:MO; [|discriminate H]. destruct (Z.eqb (Qnum c) 0) eqn:CZ; [discriminate H|]. cbn in H. injection H as <-.
    destruct (IHx1 _ eq_refl) as [<- ?], (IHx2 _ eq_refl) as [<- ?]. destruct (minv_ok m MO) as [E W].
    pose proof (Qnz c CZ) as NZ. destruct (pscale_ok (minv m) (Qinv c) p1 W H) as [S Wf]. split; auto.
    rewrite S. cbn. rewrite Q2R_inv by (intros Q; apply Qeq_eqR in Q; rewrite Q2R_0 in Q; auto).
    assert (MN : mval m <> 0) by (intros Z; rewrite Z in E; lra).
    replace (mval (minv m)) with (/ mval m) by (apply (Rmult_eq_reg_l (mval m)); auto; rewrite E; field; auto).
    field. auto.
  - destruct (norm x); try discriminate H. injection H as <-. destruct (IHx _ eq_refl) as [<- ?]. now apply pneg_ok.
  - injection H as <-. rewrite <- atom2. apply patom_ok.
Qed.

(** ** Rewriting site fractions by their formulas *)
(** multiply by the site fraction k to the power z, and replace its positive powers by its formula *)
Fixpoint ppow (p : poly) (n : nat) : poly := match n with O => pnum 1 | S n' => pmul p (ppow p n') end.
Fixpoint expo (n : N) (a : mono) : Z := match a with [] => 0%Z | (m, z) :: a' => if N.eqb m n then z else expo n a' end.
Fixpoint mdrop (n : N) (a : mono) : mono := match a with [] => [] | (m, z) :: a' => if N.eqb m n then a' else (m, z) :: mdrop n a' end.
Definition subst1 (n : N) (r : poly) (t : mono * Q) : poly :=
  let z := expo n (fst t) in
  if Z.ltb 0 z then pscale (mdrop n (fst t)) (snd t) (ppow r (Z.to_nat z)) else [t].
Fixpoint psubst (n : N) (r : poly) (p : poly) : poly :=
  match p with [] => [] | t :: p' => padd (subst1 n r t) (psubst n r p') end.
Definition lowest (n : N) (p : poly) : Z := fold_right (fun t z => Z.min (expo n (fst t)) z) 0%Z p.
(** one site: clear its negative powers and replace it *)
Definition clear (k : N) (p : poly) : option poly :=
  match norm (raw (nth_site ss k)) with
  | Some r => if isSite ss k && rawOk (raw (nth_site ss k)) then
      let n := (3 * k + 1)%N in
      let z := (- lowest n p)%Z in
      let q := if Z.eqb z 0 then p else pscale [(n, z)] 1 p in
      Some (psubst n r q)
    else None
  | None => None
  end.
Fixpoint clearAll (ks : list N) (p : poly) : option poly :=
  match p with [] => Some [] | _ =>
  match ks with [] => Some p | k :: ks' => match clear k p with Some q => clearAll ks' q | None => None end end end.
Definition relOk (r : N * N * N * N) : bool :=
  let '(a, b, c, d) := r in
  forallb (fun k => isSite ss k && rawOk (raw (nth_site ss k))) [a; b; c; d] &&
  match norm (raw (nth_site ss a)), norm (raw (nth_site ss b)), norm (raw (nth_site ss c)), norm (raw (nth_site ss d)) with
  | Some ra, Some rb, Some rc, Some rd => match padd (pmul ra rd) (pneg (pmul rb rc)) with [] => true | _ => false end
  | _, _, _, _ => false
  end.
Definition logPoly (b c d : N) : poly := padd (padd (patom (3 * b + 2)) (patom (3 * c + 2))) (pneg (patom (3 * d + 2))).
Definition useRel (p : poly) (r : N * N * N * N) : poly :=
  if relOk r then let '(a, b, c, d) := r in psubst (3 * a + 2) (logPoly b c d) p else p.
Definition vanishes (p : poly) : bool :=
  match clearAll (map N.of_nat (seq 0 (length ss))) (fold_left useRel rels p) with Some [] => true | _ => false end.

Lemma ppow_ok p n : pwf p -> pval (ppow p n) = pow (pval p) n /\ pwf (ppow p n).
Proof.
  intros W. induction n as [|n [E Wn]]; cbn [ppow].
  - destruct (pnum_ok 1) as [E W1]. rewrite Q2R_1 in E. auto.
  - destruct (pmul_ok p (ppow p n) W Wn) as [E2 W2]. split; auto. rewrite E2, E. reflexivity.
Qed.
Lemma mdrop_ok n a : mwf a -> mval a = powerRZ (atomVal n) (expo n a) * mval (mdrop n a) /\ mwf (mdrop n a).
Proof.
  induction a as [|[m z] a IH]; intros W; cbn; [split; [ring|auto]|]. inversion_clear W as [|? ? Wz W'].
  destruct (IH W') as [E Wd]. destruct (N.eqb_spec m n).
  - subst. auto.
  - split; [cbn; rewrite E; ring|constructor; auto].
Qed.
Lemma subst1_ok n r t : mwf (fst t) -> pwf r -> pval r = atomVal n -> pval (subst1 n r t) = pval [t] /\ pwf (subst1 n r t).
Proof.
  intros Wt Wr R. unfold subst1. destruct t as [a c]. cbn [fst snd] in *. destruct (mdrop_ok n a Wt) as [E Wd]. destruct (Z.ltb_spec 0 (expo n a)).
  - destruct (ppow_ok r (Z.to_nat (expo n a)) Wr) as [P Wp]. destruct (pscale_ok (mdrop n a) c _ Wd Wp) as [S Ws]. split; auto.
    rewrite S, P, R. cbn [pval]. rewrite E, pow_powerRZ, Z2Nat.id by lia. ring.
  - split; auto. constructor; auto.
Qed.
Lemma psubst_ok n r p : pwf p -> pwf r -> pval r = atomVal n -> pval (psubst n r p) = pval p /\ pwf (psubst n r p).
Proof.
  intros Wp Wr R. induction p as [|t p IH]; cbn [psubst]; [split; auto|]. inversion_clear Wp as [|? ? Wt Wp'].
  destruct (IH Wp') as [E W]. destruct (subst1_ok n r t Wt Wr R) as [E1 W1]. destruct (padd_ok _ _ W1 W) as [E2 W2].
  split; auto. rewrite E2, E1, E. destruct t as [a c]. cbn. ring.
Qed.
Lemma clear_ok k p q : pwf p -> clear k p = Some q -> pwf q /\ (pval q = 0 -> pval p = 0).
Proof.
  intros Wp. unfold clear. destruct (norm (raw (nth_site ss k))) as [r|] eqn:NR; [|discriminate].
  destruct (isSite ss k) eqn:IS; [|discriminate]. destruct (rawOk _) eqn:RO; [|discriminate]. cbv zeta. cbn [andb]. intros H. assert (Hq := f_equal (fun o => match o with Some z => z | None => q end) H). cbv beta iota in Hq. subst q. clear H.
  destruct (norm_ok _ _ NR) as [R Wr].
  assert (R' : pval r = atomVal (3 * k + 1)). { rewrite R, atom1. unfold val1, rawVal. apply rawOk_val. exact RO. }
  destruct (Z.eqb_spec (- lowest (3 * k + 1) p) 0).
  - destruct (psubst_ok _ r p Wp Wr R') as [E W]. split; auto. now rewrite E.
  - assert (NZ : atomVal (3 * k + 1) <> 0). { rewrite atom1. apply Rgt_not_eq. apply (raw_pos ss pos e Ins). exact IS. }
    set (z := (- lowest (3 * k + 1) p)%Z) in *.
    assert (Wm : mwf [((3 * k + 1)%N, z)]) by (constructor; [intros _; exact NZ|constructor]).
    destruct (pscale_ok [((3 * k + 1)%N, z)] 1 p Wm Wp) as [S Ws].
    destruct (psubst_ok _ r _ Ws Wr R') as [E W]. split; auto. rewrite E, S, Q2R_1. cbn [mval]. intros Z0.
    apply Rmult_integral in Z0. destruct Z0 as [Z0|Z0]; auto. exfalso.
    assert (powerRZ (atomVal (3 * k + 1)) z <> 0) by now apply powerRZ_NOR. lra.
Qed.
Lemma clearAll_ok ks : forall p q, pwf p -> clearAll ks p = Some q -> pwf q /\ (pval q = 0 -> pval p = 0).
Proof.
  induction ks as [|k ks IH]; intros p q Wp H.
  - destruct p; injection H as <-; auto.
  - destruct p as [|t p]; [injection H as <-; auto|]. cbn [clearAll] in H.
    destruct (clear k (t :: p)) as [p1|] eqn:C; [|discriminate H]. destruct (clear_ok _ _ _ Wp C) as [W1 E1].
    destruct (IH _ _ W1 H) as [W2 E2]. split; auto.
Qed.
Lemma relOk_ok a b c d : relOk (a, b, c, d) = true ->
  atomVal (3 * a + 2) = atomVal (3 * b + 2) + atomVal (3 * c + 2) - atomVal (3 * d + 2).
Proof.
  unfold relOk. intros H. apply andb_prop in H. destruct H as [F M]. rewrite forallb_forall in F.
  assert (P : forall k, In k [a; b; c; d] -> 0 < rawVal e (raw (nth_site ss k)) /\ rawOk (raw (nth_site ss k)) = true).
  { intros k I. apply F in I. apply andb_prop in I. destruct I as [I1 I2]. split; auto. apply (raw_pos ss pos e Ins). exact I1. }
  destruct (norm (raw (nth_site ss a))) as [ra|] eqn:Na; [|discriminate M].
  destruct (norm (raw (nth_site ss b))) as [rb|] eqn:Nb; [|discriminate M].
  destruct (norm (raw (nth_site ss c))) as [rc|] eqn:Nc; [|discriminate M].
  destruct (norm (raw (nth_site ss d))) as [rd|] eqn:Nd; [|discriminate M].
  destruct (padd (pmul ra rd) (pneg (pmul rb rc))) eqn:Z; [|discriminate M].
  destruct (norm_ok _ _ Na) as [Ea Wa]. destruct (norm_ok _ _ Nb) as [Eb Wb]. destruct (norm_ok _ _ Nc) as [Ec Wc]. destruct (norm_ok _ _ Nd) as [Ed Wd].
  destruct (pmul_ok _ _ Wa Wd) as [E1 W1]. destruct (pmul_ok _ _ Wb Wc) as [E2 W2]. destruct (pneg_ok _ W2) as [E3 W3].
  destruct (padd_ok _ _ W1 W3) as [E4 _]. rewrite Z in E4. cbn in E4. rewrite E3, E1, E2 in E4.
  assert (Q : forall k r, In k [a; b; c; d] -> pval r = val1 ss e (raw (nth_site ss k)) -> pval r = rawVal e (raw (nth_site ss k))).
  { intros k r I E. rewrite E. unfold val1, rawVal. apply rawOk_val. now apply P. }
  apply Q in Ea; [|cbn; auto]. apply Q in Eb; [|cbn; auto]. apply Q in Ec; [|cbn; auto]. apply Q in Ed; [|cbn; auto].
  rewrite !atom2. rewrite Ea, Eb, Ec, Ed in E4.
  assert (Pa := proj1 (P a ltac:(cbn; auto))). assert (Pb := proj1 (P b ltac:(cbn; auto))). assert (Pc := proj1 (P c ltac:(cbn; auto))). assert (Pd := proj1 (P d ltac:(cbn; auto))).
  assert (L : ln (rawVal e (raw (nth_site ss a)) * rawVal e (raw (nth_site ss d))) = ln (rawVal e (raw (nth_site ss b)) * rawVal e (raw (nth_site ss c)))) by (f_equal; lra).
  rewrite !ln_mult in L by auto. lra.
Qed.
Lemma useRel_ok p r : pwf p -> pval (useRel p r) = pval p /\ pwf (useRel p r).
Proof.
  intros W. unfold useRel. destruct (relOk r) eqn:RO; auto. destruct r as [[[a b] c] d]. apply relOk_ok in RO.
  unfold logPoly.
  destruct (patom_ok (3 * b + 2)) as [Eb Wb]. destruct (patom_ok (3 * c + 2)) as [Ec Wc]. destruct (patom_ok (3 * d + 2)) as [Ed Wd].
  destruct (padd_ok _ _ Wb Wc) as [E1 W1]. destruct (pneg_ok _ Wd) as [E2 W2]. destruct (padd_ok _ _ W1 W2) as [E3 W3].
  apply psubst_ok; auto. rewrite E3, E1, E2, Eb, Ec, Ed. lra.
Qed.
Lemma useRels_ok l : forall p, pwf p -> pval (fold_left useRel l p) = pval p /\ pwf (fold_left useRel l p).
Proof.
  induction l as [|r l IH]; intros p W; cbn; auto. destruct (useRel_ok p r W) as [E W1]. destruct (IH _ W1) as [E2 W2]. split; auto. congruence.
Qed.
Lemma vanishes_ok p : pwf p -> vanishes p = true -> pval p = 0.
Proof.
  unfold vanishes. intros W. destruct (useRels_ok rels p W) as [E W1]. destruct (clearAll _ _) as [[|]|] eqn:C; try discriminate. intros _.
  rewrite <- E. now apply (clearAll_ok _ _ _ W1 C).
Qed.
End At.

Definition isZero (x : expr) : bool := match norm x with Some p => vanishes p | None => false end.
Lemma isZero_ok x e : inside ss pos e -> isZero x = true -> val1 ss e x = 0.
Proof.
  intros Ins. unfold isZero. destruct (norm x) as [p|] eqn:N; [|discriminate]. intros V.
  destruct (norm_ok e Ins _ _ N) as [<- W]. exact (vanishes_ok e Ins p W V).
Qed.

(** ** The checks *)
Definition sameCheck (x y : expr) : bool := domOk ss pos x && domOk ss pos y && isZero (Sub x y).
Theorem sameCheck_ok x y : sameCheck x y = true -> same ss pos x y.
Proof.
  unfold sameCheck. intros H e Ins. apply andb_prop in H. destruct H as [H Z]. apply andb_prop in H. destruct H as [Dx Dy].
  apply isZero_ok with (e := e) in Z; auto. unfold val1 in Z. cbn in Z.
  rewrite !(denote_val1 ss pos e Ins) by auto. unfold val1. lra.
Qed.
Definition deriveCheck (v : N) (x d : expr) : bool :=
  sitesOk ss && domOk ss pos x && domOk ss pos d && isZero (Sub (diff ss (along v) x) d).
Theorem deriveCheck_ok v x d : deriveCheck v x d = true -> derives ss pos v x d.
Proof.
  unfold deriveCheck. intros H e Ins. apply andb_prop in H. destruct H as [H Z]. apply andb_prop in H. destruct H as [H Dd].
  apply andb_prop in H. destruct H as [SO Dx].
  pose proof (diff_ok ss pos e Ins (set e v) (e v) (set_id e v) (along v) (along_ok ss e v) x SO Dx) as D. apply isZero_ok with (e := e) in Z; auto. unfold val1 in Z. cbn in Z.
  rewrite (denote_val1 ss pos e Ins) by auto. eapply is_derive_eq'; [exact D|]. unfold val1. lra.
Qed.
End Norm.
