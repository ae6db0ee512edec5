(** Expressions of the kind the solution models are written in (numbers,
    variables, site fractions, + - * /, logarithms of site fractions), what
    they mean as real functions, and a verified check that one expression is
    the derivative of another. *)
From Coq Require Import Reals QArith Qreals ZArith NArith List Lia Lra Bool.
From Coquelicot Require Import Coquelicot.
Import ListNotations.
Local Open Scope R_scope.

(** Site k and Log k refer to the k-th entry of a list of site fractions. *)
Inductive expr : Type :=
| Num (q : Q) | Var (n : N) | Site (k : N)
| Add (a b : expr) | Sub (a b : expr) | Mul (a b : expr) | Div (a b : expr) | Neg (a : expr)
| Log (k : N).

(** ** Meaning *)
Definition env := N -> R.
Definition set (e : env) (v : N) (y : R) : env := fun n => if N.eqb n v then y else e n.
Definition eps : R := / 2 ^ 52.                       (* DBL_EPSILON *)

(** An expression, given the values of the site fractions. *)
Fixpoint val (s : N -> R) (e : env) (x : expr) : R :=
  match x with
  | Num q => Q2R q
  | Var n => e n
  | Site k => s k
  | Add a b => val s e a + val s e b
  | Sub a b => val s e a - val s e b
  | Mul a b => val s e a * val s e b
  | Div a b => val s e a / val s e b
  | Neg a => - val s e a
  | Log k => ln (s k)
  end.

(** A site fraction: a formula in the variables only. [Low] is clamped from
    below, (x > DBL_EPSILON) ? x : DBL_EPSILON; [Both] is also clamped from
    above, if (x >= 1.0 - DBL_EPSILON) x = 1.0 - DBL_EPSILON; [Free] is not
    clamped. [Low0] is if (x <= 0.0) x = DBL_EPSILON; [Both0] also has
    if (x >= 1.0) x = 1.0 - DBL_EPSILON; [Third] is [Low] with the upper clamp
    at 1.0/3.0 - DBL_EPSILON. *)
Inductive clamp : Type := Free | Low | Both | Low0 | Both0 | Third.
Record site : Type := mkSite { raw : expr; guard : clamp }.
Definition clampVal (c : clamp) (x : R) : R :=
  let low := if Rlt_dec eps x then x else eps in
  let low0 := if Rlt_dec 0 x then x else eps in
  match c with Free => x | Low => low | Both => if Rlt_dec low (1 - eps) then low else 1 - eps
  | Low0 => low0 | Both0 => if Rlt_dec low0 1 then low0 else 1 - eps
  | Third => if Rlt_dec low (1 / 3 - eps) then low else 1 / 3 - eps end.
Definition clear_of (c : clamp) (x : R) : Prop :=
  match c with Free => 0 < x | Low => eps < x | Both => eps < x < 1 - eps | Low0 => 0 < x | Both0 => 0 < x < 1
  | Third => eps < x < 1 / 3 - eps end.
Definition rawVal (e : env) (x : expr) : R := val (fun _ => 0) e x.
Definition nth_site (ss : list site) (k : N) : site := nth (N.to_nat k) ss (mkSite (Num 1) Free).
Definition siteVal (ss : list site) (e : env) (k : N) : R :=
  let s := nth_site ss k in clampVal (guard s) (rawVal e (raw s)).
Definition denote (ss : list site) (e : env) (x : expr) : R := val (siteVal ss e) e x.

(** Where the expressions are meant to be differentiable: every site fraction
    is clear of its clamps (or positive), and the variables in [pos] are positive. *)
Definition inside (ss : list site) (pos : list N) (e : env) : Prop :=
  (forall s, In s ss -> clear_of (guard s) (rawVal e (raw s))) /\ (forall v, In v pos -> 0 < e v).

(** d is the derivative of x with respect to variable v, at every point inside *)
Definition derives (ss : list site) (pos : list N) (v : N) (x d : expr) : Prop :=
  forall e, inside ss pos e -> is_derive (fun y => denote ss (set e v y) x) (e v) (denote ss e d).
Definition same (ss : list site) (pos : list N) (x y : expr) : Prop :=
  forall e, inside ss pos e -> denote ss e x = denote ss e y.

(** ** Symbolic derivative *)
Section Diff.
Variable ss : list site.
Fixpoint rawOk (x : expr) : bool :=
  match x with
  | Num _ | Var _ => true
  | Add a b | Sub a b | Mul a b => rawOk a && rawOk b
  | Div a (Num q) => rawOk a && negb (Z.eqb (Qnum q) 0)
  | Neg a => rawOk a
  | _ => false
  end.
(** derivative along a direction: [dir n] is the derivative of variable n *)
Fixpoint rdiff (dir : N -> expr) (x : expr) : expr :=
  match x with
  | Num _ => Num 0
  | Var n => dir n
  | Add a b => Add (rdiff dir a) (rdiff dir b)
  | Sub a b => Sub (rdiff dir a) (rdiff dir b)
  | Mul a b => Add (Mul (rdiff dir a) b) (Mul a (rdiff dir b))
  | Div a b => Div (rdiff dir a) b
  | Neg a => Neg (rdiff dir a)
  | _ => Num 0
  end.
Definition isNum (x : expr) : bool := match x with Num _ => true | _ => false end.
Fixpoint diff (dir : N -> expr) (x : expr) : expr :=
  match x with
  | Num _ => Num 0
  | Var n => dir n
  | Site k => rdiff dir (raw (nth_site ss k))
  | Add a b => Add (diff dir a) (diff dir b)
  | Sub a b => Sub (diff dir a) (diff dir b)
  | Mul a b => Add (Mul (diff dir a) b) (Mul a (diff dir b))
  | Div a b => if isNum b then Div (diff dir a) b
               else Div (Sub (Mul (diff dir a) b) (Mul a (diff dir b))) (Mul b b)
  | Neg a => Neg (diff dir a)
  | Log k => Div (rdiff dir (raw (nth_site ss k))) (Site k)
  end.
(** the direction of one variable *)
Definition along (v n : N) : expr := if N.eqb n v then Num 1 else Num 0.

(** denominators that cannot vanish *)
Variable pos : list N.
Definition isPos (n : N) : bool := existsb (N.eqb n) pos.
Definition isSite (k : N) : bool := N.ltb k (N.of_nat (length ss)).
Fixpoint denOk (x : expr) : bool :=
  match x with
  | Num q => negb (Z.eqb (Qnum q) 0)
  | Var n => isPos n
  | Site k => isSite k
  | Mul a b => denOk a && denOk b
  | Neg a => denOk a
  | _ => false
  end.
Fixpoint domOk (x : expr) : bool :=
  match x with
  | Num _ | Var _ => true
  | Site k | Log k => isSite k
  | Add a b | Sub a b | Mul a b => domOk a && domOk b
  | Div a b => domOk a && domOk b && denOk b
  | Neg a => domOk a
  end.
Definition sitesOk : bool := forallb (fun s => rawOk (raw s)) ss.

(** the value with unclamped site fractions *)
Definition val1 (e : env) (x : expr) : R := val (fun k => rawVal e (raw (nth_site ss k))) e x.

Lemma eps_pos : 0 < eps.
Proof. unfold eps. apply Rinv_0_lt_compat, pow_lt. lra. Qed.
Lemma Qnz q : Z.eqb (Qnum q) 0 = false -> Q2R q <> 0.
Proof.
  intros H E. apply Z.eqb_neq in H. unfold Q2R in E. apply Rmult_integral in E. destruct E as [E|E].
  - apply eq_IZR in E. auto.
  - assert (0 < / IZR (Zpos (Qden q))); [|lra]. apply Rinv_0_lt_compat. apply IZR_lt. reflexivity.
Qed.
Lemma isSite_in k : isSite k = true -> In (nth_site ss k) ss.
Proof. unfold isSite. intros H. apply N.ltb_lt in H. unfold nth_site. apply nth_In. lia. Qed.
Lemma isPos_in n : isPos n = true -> In n pos.
Proof. unfold isPos. intros H. apply existsb_exists in H. destruct H as (y & I & E). apply N.eqb_eq in E. now subst. Qed.
Lemma is_derive_eq' (f : R -> R) x a b : is_derive f x a -> a = b -> is_derive f x b.
Proof. now intros H <-. Qed.
Lemma Q2R_0 : Q2R 0 = 0. Proof. unfold Q2R; cbn; lra. Qed.
Lemma Q2R_1 : Q2R 1 = 1. Proof. unfold Q2R; cbn; lra. Qed.
Lemma val_ext s1 s2 e1 e2 x : (forall k, s1 k = s2 k) -> (forall n, e1 n = e2 n) -> val s1 e1 x = val s2 e2 x.
Proof. intros H1 H2. induction x; cbn; rewrite ?H1, ?H2, ?IHx, ?IHx1, ?IHx2; auto. Qed.
Lemma rawOk_val z s1 s2 e : rawOk z = true -> val s1 e z = val s2 e z.
Proof.
  induction z; cbn; intros Hz; try discriminate Hz; auto.
  - apply andb_prop in Hz. destruct Hz. f_equal; auto.
  - apply andb_prop in Hz. destruct Hz. f_equal; auto.
  - apply andb_prop in Hz. destruct Hz. f_equal; auto.
  - destruct z2; try discriminate Hz. apply andb_prop in Hz. destruct Hz. cbn. f_equal; auto.
  - f_equal; auto.
Qed.

(** a point and a differentiable path through it *)
Section At.
Variable e : env.
Hypothesis Ins : inside ss pos e.
Lemma raw_pos k : isSite k = true -> 0 < rawVal e (raw (nth_site ss k)).
Proof. intros H. pose proof (proj1 Ins _ (isSite_in k H)) as Q. pose proof eps_pos. unfold clear_of in Q. destruct (guard _); lra. Qed.
Lemma denOk_nz x : denOk x = true -> val1 e x <> 0.
Proof.
  unfold val1. induction x; cbn; intros H; try discriminate.
  - apply Qnz. now destruct (Z.eqb (Qnum q) 0).
  - apply Rgt_not_eq. apply (proj2 Ins). now apply isPos_in.
  - apply Rgt_not_eq. now apply raw_pos.
  - apply andb_prop in H. destruct H. apply Rmult_integral_contrapositive. auto.
  - apply Ropp_neq_0_compat. auto.
Qed.

Variable g : R -> env.
Variable y0 : R.
Hypothesis Thru : forall n, g y0 n = e n.
Variable dir : N -> expr.
Hypothesis Dir : forall n, is_derive (fun y => g y n) y0 (val1 e (dir n)).
Lemma rawVal_id x : rawVal (g y0) x = rawVal e x.
Proof. apply val_ext; auto. Qed.
Lemma val1_id x : val1 (g y0) x = val1 e x.
Proof. apply val_ext; [intros; apply rawVal_id|auto]. Qed.

Ltac req := match goal with |- ?a = ?b => change (@eq R a b) end.
Lemma rdiff_ok x : rawOk x = true -> is_derive (fun y => rawVal (g y) x) y0 (val1 e (rdiff dir x)).
Proof.
  induction x; intros H; try discriminate H.
  - cbn. rewrite Q2R_0. apply (is_derive_const (K:=R_AbsRing) (V:=R_NormedModule)).
  - cbn. apply Dir.
  - cbn in H. apply andb_prop in H. destruct H. apply (is_derive_plus (K:=R_AbsRing) (V:=R_NormedModule)); auto.
  - cbn in H. apply andb_prop in H. destruct H. apply (is_derive_minus (K:=R_AbsRing) (V:=R_NormedModule)); auto.
  - cbn in H. apply andb_prop in H. destruct H as [H1 H2].
    eapply is_derive_eq'; [apply (is_derive_mult (fun y => rawVal (g y) x1) (fun y => rawVal (g y) x2)); [apply IHx1; auto|apply IHx2; auto|intros; apply Rmult_comm]|].
    unfold plus, mult; cbn. rewrite !rawVal_id. unfold val1. cbn [val].
    rewrite (rawOk_val x1 (fun k => rawVal e (raw (nth_site ss k))) (fun _ => 0) e H1), (rawOk_val x2 (fun k => rawVal e (raw (nth_site ss k))) (fun _ => 0) e H2). unfold rawVal. ring.
  - cbn in H. destruct x2; try discriminate H. apply andb_prop in H. destruct H as [Ha Hq].
    assert (NZ : Q2R q <> 0) by (apply Qnz; now destruct (Z.eqb (Qnum q) 0)).
    eapply is_derive_eq'.
    + apply (is_derive_ext (fun y => / Q2R q * rawVal (g y) x1)).
      * intros y. req. unfold rawVal. cbn [val]. field. exact NZ.
      * apply is_derive_scal. apply IHx1. auto.
    + unfold val1. cbn [val rdiff]. req. field. exact NZ.
  - cbn in H. apply (is_derive_opp (K:=R_AbsRing) (V:=R_NormedModule)); auto.
Qed.

Lemma site_rawOk k : sitesOk = true -> isSite k = true -> rawOk (raw (nth_site ss k)) = true.
Proof. unfold sitesOk. intros H S. rewrite forallb_forall in H. apply H. now apply isSite_in. Qed.

Lemma diff1_ok x : sitesOk = true -> domOk x = true -> is_derive (fun y => val1 (g y) x) y0 (val1 e (diff dir x)).
Proof.
  intros SO. induction x; intros H.
  - cbn. rewrite Q2R_0. apply (is_derive_const (K:=R_AbsRing) (V:=R_NormedModule)).
  - cbn. apply Dir.
  - cbn in H. cbn [diff]. apply rdiff_ok. now apply site_rawOk.
  - cbn in H. apply andb_prop in H. destruct H. apply (is_derive_plus (K:=R_AbsRing) (V:=R_NormedModule)); auto.
  - cbn in H. apply andb_prop in H. destruct H. apply (is_derive_minus (K:=R_AbsRing) (V:=R_NormedModule)); auto.
  - cbn in H. apply andb_prop in H. destruct H.
    eapply is_derive_eq'; [apply (is_derive_mult (fun y => val1 (g y) x1) (fun y => val1 (g y) x2)); [apply IHx1; auto|apply IHx2; auto|intros; apply Rmult_comm]|].
    unfold plus, mult; cbn. rewrite !val1_id. unfold val1. cbn [val]. ring.
  - cbn in H. apply andb_prop in H. destruct H as [H Hd]. apply andb_prop in H. destruct H as [Ha Hb].
    pose proof (denOk_nz x2 Hd) as NZ.
    cbn [diff]. destruct (isNum x2) eqn:EN.
    + destruct x2; try discriminate EN. cbn in NZ. eapply is_derive_eq'.
      * apply (is_derive_ext (fun y => / Q2R q * val1 (g y) x1)).
        -- intros y. req. unfold val1. cbn [val]. field. exact NZ.
        -- apply is_derive_scal. apply IHx1. auto.
      * unfold val1. cbn [val]. req. field. exact NZ.
    + eapply is_derive_eq'.
      * apply (is_derive_div (fun y => val1 (g y) x1) (fun y => val1 (g y) x2)); [apply IHx1; auto|apply IHx2; auto|rewrite val1_id; exact NZ].
      * cbv beta. rewrite !val1_id. unfold val1 in *. cbn [val]. req. field. exact NZ.
  - cbn in H. apply (is_derive_opp (K:=R_AbsRing) (V:=R_NormedModule)); auto.
  - cbn in H. cbn [diff].
    pose proof (raw_pos k H) as P. eapply is_derive_eq'.
    + apply (is_derive_comp (K:=R_AbsRing) (V:=R_NormedModule) ln (fun y => rawVal (g y) (raw (nth_site ss k)))).
      * rewrite rawVal_id. apply is_derive_Reals. apply derivable_pt_lim_ln. exact P.
      * apply rdiff_ok. now apply site_rawOk.
    + unfold scal; cbn; unfold mult; cbn. reflexivity.
Qed.

(** inside, clamps are not active, here and nearby *)
Lemma clampVal_clear c x : clear_of c x -> clampVal c x = x.
Proof.
  unfold clear_of, clampVal. destruct c; intros; auto; destruct (Rlt_dec eps x); try lra; destruct (Rlt_dec 0 x); try lra;
    repeat match goal with |- context[Rlt_dec ?a ?b] => destruct (Rlt_dec a b) end; lra.
Qed.
Lemma siteVal_raw k : isSite k = true -> siteVal ss e k = rawVal e (raw (nth_site ss k)).
Proof.
  intros H. unfold siteVal. pose proof (proj1 Ins _ (isSite_in k H)) as Q. now apply clampVal_clear.
Qed.
Lemma val_sites s1 s2 e' x : domOk x = true -> (forall k, isSite k = true -> s1 k = s2 k) -> val s1 e' x = val s2 e' x.
Proof.
  intros D H. induction x; cbn in *; auto; repeat (apply andb_prop in D; destruct D as [D ?]); try (rewrite ?IHx, ?IHx1, ?IHx2 by auto; reflexivity); now rewrite H.
Qed.
Lemma denote_val1 x : domOk x = true -> denote ss e x = val1 e x.
Proof. intros D. unfold denote, val1. apply val_sites; auto. intros k Hk. now apply siteVal_raw. Qed.

Lemma inside_near : sitesOk = true ->
  locally y0 (fun y => forall k, isSite k = true -> siteVal ss (g y) k = rawVal (g y) (raw (nth_site ss k))).
Proof.
  intros SO.
  assert (G : forall l, (forall s, In s l -> In s ss) ->
    locally y0 (fun y => forall s, In s l -> clear_of (guard s) (rawVal (g y) (raw s)))).
  { induction l as [|s l IH]; intros Hl; [apply filter_forall; intros y s []|].
    assert (Hs : In s ss) by (apply Hl; now left).
    assert (RO : rawOk (raw s) = true). { unfold sitesOk in SO. rewrite forallb_forall in SO. auto. }
    pose proof (rdiff_ok (raw s) RO) as Dv.
    assert (C : continuous (fun y => rawVal (g y) (raw s)) y0).
    { apply (ex_derive_continuous (K:=R_AbsRing) (V:=R_NormedModule)). eexists. exact Dv. }
    pose proof (proj1 Ins s Hs) as Lw.
    assert (L1 : locally y0 (fun y => clear_of (guard s) (rawVal (g y) (raw s)))).
    { apply (C (fun x => clear_of (guard s) x)). rewrite rawVal_id. clear - Lw. unfold clear_of in *. destruct (guard s).
      - apply (open_gt 0). exact Lw.
      - apply (open_gt eps). exact Lw.
      - apply (open_and _ _ (open_gt eps) (open_lt (1 - eps))). exact Lw.
      - apply (open_gt 0). exact Lw.
      - apply (open_and _ _ (open_gt 0) (open_lt 1)). exact Lw.
      - apply (open_and _ _ (open_gt eps) (open_lt (1 / 3 - eps))). exact Lw. }
    specialize (IH ltac:(intros; apply Hl; now right)).
    generalize (filter_and _ _ L1 IH). apply filter_imp. intros y [A B] s' [<-|I]; auto. }
  specialize (G ss (fun s H => H)). revert G. apply filter_imp. intros y A k Hk.
  pose proof (A _ (isSite_in k Hk)) as Q. unfold siteVal. now apply clampVal_clear.
Qed.

Theorem diff_ok x : sitesOk = true -> domOk x = true ->
  is_derive (fun y => denote ss (g y) x) y0 (val1 e (diff dir x)).
Proof.
  intros SO D. apply (is_derive_ext_loc (fun y => val1 (g y) x)).
  - generalize (inside_near SO). apply filter_imp. intros y A. unfold denote, val1. symmetry. apply val_sites; auto.
  - now apply diff1_ok.
Qed.
End At.

Lemma set_id e v n : set e v (e v) n = e n.
Proof. unfold set. destruct (N.eqb_spec n v); subst; auto. Qed.
Lemma along_ok e v n : is_derive (fun y => set e v y n) (e v) (val1 e (along v n)).
Proof.
  unfold along, set. destruct (N.eqb n v); cbn; rewrite ?Q2R_0, ?Q2R_1; [apply (is_derive_id (K:=R_AbsRing))|apply (is_derive_const (K:=R_AbsRing) (V:=R_NormedModule))].
Qed.
End Diff.
