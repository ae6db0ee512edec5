(** Decimal text of numbers: the fixed-notation output used by the writer and
    the std::stod / atof style input used by the readers.
    Numbers are exact rationals [Qc]; binary rounding is not modelled. *)
From Coq Require Import Ascii String List Bool Arith ZArith NArith QArith Qcanon Qround Lia.
From Verif Require Import Str.
Import ListNotations.
Local Open Scope nat_scope.

Definition digit_char (d : N) : ascii := ascii_of_N (48 + d)%N.
Definition is_digit (c : ascii) : bool := ((48 <=? N_of_ascii c) && (N_of_ascii c <=? 57))%N.
Definition digit_val (c : ascii) : N := (N_of_ascii c - 48)%N.

(** decimal digits of a natural number, most significant first *)
Fixpoint dig (fuel : nat) (n : N) (acc : str) : str :=
  match fuel with
  | O => acc
  | S f => let acc' := digit_char (n mod 10)%N :: acc in
           if (n / 10 =? 0)%N then acc' else dig f (n / 10)%N acc'
  end.
Definition digits (n : N) : str := dig (S (N.size_nat n)) n [].
Definition pad (k : nat) (s : str) : str := repeat "0"%char (k - length s) ++ s.

(** round to nearest, ties to even (IEEE/printf rounding of the exact value) *)
Definition round_he (x : Q) : Z :=
  let f := Qfloor x in
  let r := (x - inject_Z f)%Q in
  match Qcompare r (1 # 2) with
  | Lt => f
  | Gt => (f + 1)%Z
  | Eq => if Z.even f then f else (f + 1)%Z
  end.

Definition pow10 (p : nat) : positive := Pos.pow 10 (Pos.of_nat p).
Definition pow10p (p : nat) : positive := match p with O => 1%positive | _ => pow10 p end.

(** std::fixed << std::setprecision(p) << q, src/e_utility.cpp:80-92 *)
Definition fixed (p : nat) (q : Qc) : str :=
  let n := round_he (this q * (Zpos (pow10p p) # 1))%Q in
  let ds := pad (S p) (digits (Z.abs_N n)) in
  let k := length ds - p in
  (if (Qnum (this q) <? 0)%Z then ["-"%char] else [])
  ++ firstn k ds
  ++ (match p with O => [] | _ => "."%char :: skipn k ds end).

(** std::stod / atof: optional blanks, sign, digits, optional point and digits;
    trailing characters are ignored.  None: no conversion (std::invalid_argument).
    Exponents, hexadecimal, inf and nan are not modelled. *)
Fixpoint skip_blanks (s : str) : str :=
  match s with
  | c :: s' => if Ascii.eqb c space then skip_blanks s' else s
  | [] => []
  end.
Fixpoint span_digits (s : str) : str * str :=
  match s with
  | c :: s' => if is_digit c then let (a, b) := span_digits s' in (c :: a, b) else ([], s)
  | [] => ([], [])
  end.
Definition num_of (ds : str) : N :=
  fold_left (fun a c => (10 * a + digit_val c)%N) ds 0%N.

Definition stod (s0 : str) : option Qc :=
  let s := skip_blanks s0 in
  let '(neg, s1) := match s with
                    | c :: t => if Ascii.eqb c "-" then (true, t)
                                else if Ascii.eqb c "+" then (false, t) else (false, s)
                    | [] => (false, s)
                    end in
  let '(ip, s2) := span_digits s1 in
  let '(fp, _) := match s2 with
                  | c :: t => if Ascii.eqb c "." then span_digits t else ([], s2)
                  | [] => ([], s2)
                  end in
  match ip ++ fp with
  | [] => None
  | ds => let m := Z.of_N (num_of ds) in
          Some (Q2Qc ((if neg then - m else m)%Z # pow10p (length fp)))
  end.

(** characters the writer can emit for a number *)
Definition numch (c : ascii) : bool :=
  is_digit c || Ascii.eqb c "."%char || Ascii.eqb c "-"%char.

(** a value that [fixed p] writes without loss *)
Definition on_grid (p : nat) (q : Qc) : Prop :=
  exists z : Z, (this q * (Zpos (pow10p p) # 1) == inject_Z z)%Q.

(** ---- lemmas ---- *)
Lemma digit_char_is_digit d : (d < 10)%N -> is_digit (digit_char d) = true.
Proof.
  intro H. unfold is_digit, digit_char. rewrite N_ascii_embedding by lia.
  apply andb_true_iff. split; apply N.leb_le; lia.
Qed.

Lemma digit_val_char d : (d < 10)%N -> digit_val (digit_char d) = d.
Proof. intro H. unfold digit_val, digit_char. rewrite N_ascii_embedding by lia. lia. Qed.

Lemma num_of_app a b :
  num_of (a ++ b) = (num_of a * 10 ^ N.of_nat (length b) + num_of b)%N.
Proof.
  unfold num_of. rewrite fold_left_app.
  assert (G : forall s x, fold_left (fun a c => (10 * a + digit_val c)%N) s x
             = (x * 10 ^ N.of_nat (length s)
                + fold_left (fun a c => (10 * a + digit_val c)%N) s 0)%N).
  { induction s as [|c s IH]; intro x.
    - simpl. lia.
    - cbn [fold_left length]. rewrite IH. rewrite (IH (10 * 0 + digit_val c)%N).
      rewrite Nat2N.inj_succ, N.pow_succ_r'. lia. }
  rewrite G. reflexivity.
Qed.

Lemma dig_spec f n acc :
  (n < 10 ^ N.of_nat f)%N -> forallb is_digit acc = true ->
  forallb is_digit (dig f n acc) = true /\
  num_of (dig f n acc) = (n * 10 ^ N.of_nat (length acc) + num_of acc)%N.
Proof.
  revert n acc; induction f as [|f IH]; intros n acc Hn Hacc.
  - change (10 ^ N.of_nat 0)%N with 1%N in Hn. assert (n = 0)%N by lia. subst.
    cbn [dig]. split; [exact Hacc | lia].
  - cbn [dig]. pose proof (N.mod_lt n 10 ltac:(lia)) as Hm.
    pose proof (N.div_mod n 10 ltac:(lia)) as Hd.
    assert (Hacc' : forallb is_digit (digit_char (n mod 10) :: acc) = true).
    { cbn [forallb]. rewrite digit_char_is_digit by exact Hm. exact Hacc. }
    assert (Hnum : num_of (digit_char (n mod 10) :: acc)
                   = ((n mod 10) * 10 ^ N.of_nat (length acc) + num_of acc)%N).
    { change (digit_char (n mod 10) :: acc) with ([digit_char (n mod 10)] ++ acc).
      rewrite num_of_app. unfold num_of at 1. cbn [fold_left].
      rewrite digit_val_char by exact Hm. lia. }
    destruct (n / 10 =? 0)%N eqn:E.
    + apply N.eqb_eq in E. split; [exact Hacc'|]. rewrite Hnum.
      rewrite E in Hd. replace (n mod 10)%N with n by lia. reflexivity.
    + rewrite Nat2N.inj_succ, N.pow_succ_r' in Hn.
      destruct (IH (n / 10)%N (digit_char (n mod 10) :: acc)) as [I1 I2].
      * apply N.div_lt_upper_bound; lia.
      * exact Hacc'.
      * split; [exact I1|]. rewrite I2, Hnum. cbn [length].
        rewrite Nat2N.inj_succ, N.pow_succ_r'. rewrite Hd at 3. ring.
Qed.

Lemma size_pow n : (n < 10 ^ N.of_nat (S (N.size_nat n)))%N.
Proof.
  apply N.lt_le_trans with (2 ^ N.size n)%N.
  - apply N.size_gt.
  - assert (Hs : N.size n = N.of_nat (N.size_nat n)).
    { destruct n as [|p]; [reflexivity|]. simpl. induction p as [p IH|p IH|]; simpl in *; auto; lia. }
    rewrite Hs. apply N.le_trans with (10 ^ N.of_nat (N.size_nat n))%N.
    + apply N.pow_le_mono_l. lia.
    + apply N.pow_le_mono_r; lia.
Qed.

Lemma digits_spec n : forallb is_digit (digits n) = true /\ num_of (digits n) = n.
Proof.
  unfold digits. destruct (dig_spec (S (N.size_nat n)) n [] (size_pow n) eq_refl) as [H1 H2].
  split; [exact H1|]. rewrite H2. cbn. change (10 ^ 0)%N with 1%N. lia.
Qed.

Lemma num_of_zeros k s : num_of (repeat "0"%char k ++ s) = num_of s.
Proof. induction k as [|k IH]; [reflexivity|]. exact IH. Qed.

Lemma pad_digits k s : forallb is_digit s = true -> forallb is_digit (pad k s) = true.
Proof.
  intro H. unfold pad. rewrite forallb_app, H, andb_true_r.
  induction (k - length s) as [|m IH]; [reflexivity|]. exact IH.
Qed.

Lemma pad_length k s : length (pad k s) = Nat.max k (length s).
Proof. unfold pad. rewrite app_length, repeat_length. lia. Qed.

Lemma span_digits_app a b :
  forallb is_digit a = true ->
  match b with [] => True | c :: _ => is_digit c = false end ->
  span_digits (a ++ b) = (a, b).
Proof.
  induction a as [|c a IH]; intros Ha Hb; simpl.
  - destruct b as [|c b]; [reflexivity|]. simpl. now rewrite Hb.
  - simpl in Ha. apply andb_true_iff in Ha as [H1 H2]. rewrite H1. now rewrite IH.
Qed.

Lemma round_he_int x z : (x == inject_Z z)%Q -> round_he x = z.
Proof.
  intro H. unfold round_he. assert (F : Qfloor x = z) by (rewrite H; apply Qfloor_Z).
  rewrite F. assert (R : (x - inject_Z z == 0)%Q) by (rewrite H; ring).
  rewrite R. reflexivity.
Qed.

Lemma round_he_unfold_comp x y : (x == y)%Q -> round_he x = round_he y.
Proof.
  intro H. unfold round_he. assert (F : Qfloor x = Qfloor y) by now rewrite H.
  rewrite F. assert (R : (x - inject_Z (Qfloor y) == y - inject_Z (Qfloor y))%Q) by (now rewrite H).
  now rewrite R.
Qed.

Lemma pow10p_spec p : Zpos (pow10p p) = (10 ^ Z.of_nat p)%Z.
Proof.
  destruct p as [|p]; [reflexivity|]. unfold pow10p, pow10.
  rewrite Pos2Z.inj_pow. rewrite <- Pos.of_nat_succ. rewrite Zpos_P_of_succ_nat.
  rewrite Nat2Z.inj_succ. reflexivity.
Qed.

(** Reading back what [fixed] wrote, whatever non-numeric text follows. *)
Lemma stod_fixed p q rest :
  p <> O -> on_grid p q ->
  match rest with [] => True | c :: _ => is_digit c = false end ->
  stod (fixed p q ++ rest) = Some q.
Proof.
  intros Hp [z Hz] Hrest. destruct p as [|p']; [easy|]. set (p := S p') in *.
  unfold fixed. rewrite (round_he_int _ _ Hz).
  set (ds := pad (S p) (digits (Z.abs_N z))). set (k := length ds - p).
  destruct (digits_spec (Z.abs_N z)) as [Dd Dn].
  assert (Hds : forallb is_digit ds = true) by (apply pad_digits; exact Dd).
  assert (Hnum : num_of ds = Z.abs_N z) by (unfold ds, pad; rewrite num_of_zeros; exact Dn).
  assert (Hlen : S p <= length ds) by (unfold ds; rewrite pad_length; lia).
  assert (Hsplit : firstn k ds ++ skipn k ds = ds) by apply firstn_skipn.
  assert (Hf : forallb is_digit (firstn k ds) = true /\ forallb is_digit (skipn k ds) = true).
  { rewrite <- Hsplit, forallb_app, andb_true_iff in Hds. exact Hds. }
  destruct Hf as [Hf1 Hf2].
  assert (Lk : length (skipn k ds) = p) by (rewrite skipn_length; unfold k; lia).
  assert (Hne : firstn k ds <> []).
  { intro E. apply (f_equal (@length ascii)) in E. rewrite firstn_length in E. unfold k in E. simpl in E. lia. }
  assert (Hval : forall neg : bool, neg = (Qnum (this q) <? 0)%Z ->
     Q2Qc ((if neg then - Z.of_N (num_of ds) else Z.of_N (num_of ds))%Z # pow10p p) = q).
  { intros neg Hneg. apply Qc_is_canon. unfold Q2Qc. cbn [this]. rewrite Qred_correct.
    rewrite Hnum, N2Z.inj_abs_N.
    assert (Hq : (this q == z # pow10p p)%Q).
    { unfold Qeq, inject_Z, Qmult in Hz. simpl in Hz. unfold Qeq. simpl. lia. }
    rewrite Hq. replace (if neg then (- Z.abs z)%Z else Z.abs z) with z; [reflexivity|].
    subst neg. unfold Qeq in Hq. simpl in Hq.
    destruct (Z.ltb_spec (Qnum (this q)) 0) as [L|L].
    - assert (z < 0)%Z by nia. lia.
    - assert (0 <= z)%Z by nia. lia. }
  assert (Hbody : forall sgn (neg : bool),
     sgn = (if neg then ["-"%char] else []) ->
     neg = (Qnum (this q) <? 0)%Z ->
     stod ((sgn ++ firstn k ds ++ "."%char :: skipn k ds) ++ rest) = Some q).
  { intros sgn neg -> Hneg.
    destruct (firstn k ds) as [|c cs] eqn:Ef; [easy|].
    assert (Hc : is_digit c = true) by (simpl in Hf1; apply andb_true_iff in Hf1; tauto).
    assert (Hcne : forall d, is_digit d = false -> Ascii.eqb c d = false).
    { intros d Hd. destruct (Ascii.eqb_spec c d) as [->|]; [congruence|reflexivity]. }
    assert (Hsp : span_digits ((c :: cs) ++ "."%char :: skipn k ds ++ rest)
                  = (c :: cs, "."%char :: skipn k ds ++ rest)).
    { apply span_digits_app; [exact Hf1 | reflexivity]. }
    assert (Hsp2 : span_digits (skipn k ds ++ rest) = (skipn k ds, rest)).
    { apply span_digits_app; assumption. }
    specialize (Hval neg Hneg).
    unfold stod. destruct neg.
    - cbn [app skip_blanks]. change (Ascii.eqb "-" space) with false. cbv beta iota zeta.
      change (Ascii.eqb "-" "-") with true. cbv beta iota zeta.
      rewrite <- app_assoc. cbn [app] in Hsp |- *. rewrite Hsp. cbv beta iota zeta.
      change (Ascii.eqb "." ".") with true. cbv beta iota zeta. rewrite Hsp2.
      cbn [app]. cbv beta iota zeta. change (c :: cs ++ skipn k ds) with ((c :: cs) ++ skipn k ds).
      rewrite Hsplit, Lk, Hval. reflexivity.
    - cbn [app skip_blanks]. rewrite (Hcne space eq_refl). cbv beta iota zeta.
      rewrite (Hcne "-"%char eq_refl), (Hcne "+"%char eq_refl). cbv beta iota zeta.
      rewrite <- app_assoc. cbn [app] in Hsp |- *. rewrite Hsp. cbv beta iota zeta.
      change (Ascii.eqb "." ".") with true. cbv beta iota zeta. rewrite Hsp2.
      cbn [app]. cbv beta iota zeta. change (c :: cs ++ skipn k ds) with ((c :: cs) ++ skipn k ds).
      rewrite Hsplit, Lk, Hval. reflexivity. }
  cbn zeta. apply (Hbody _ (Qnum (this q) <? 0)%Z); reflexivity.
Qed.

Lemma stod_space s : stod (space :: s) = stod s.
Proof. reflexivity. Qed.

Lemma fixed_numch p q : forallb numch (fixed p q) = true.
Proof.
  unfold fixed. rewrite forallb_app.
  destruct (digits_spec (Z.abs_N (round_he (this q * (Zpos (pow10p p) # 1))))) as [Dd _].
  set (ds := pad (S p) _).
  assert (Hds : forallb is_digit ds = true) by (apply pad_digits; exact Dd).
  set (k := length ds - p).
  assert (Hds2 : forall c, In c ds -> numch c = true).
  { intros c Hc. unfold numch. rewrite forallb_forall in Hds. now rewrite (Hds c Hc). }
  apply andb_true_iff. split; [destruct (_ <? _)%Z; reflexivity|].
  rewrite forallb_app. apply andb_true_iff. split.
  - apply forallb_forall. intros c Hc. apply Hds2. rewrite <- (firstn_skipn k ds). apply in_app_iff. auto.
  - destruct p; [reflexivity|]. cbn [forallb]. apply andb_true_iff. split; [reflexivity|].
    apply forallb_forall. intros c Hc. apply Hds2. rewrite <- (firstn_skipn k ds). apply in_app_iff. auto.
Qed.

Lemma numch_lower1 c : numch c = true -> lower1 c = c.
Proof. destruct c as [[] [] [] [] [] [] [] []]; vm_compute; congruence. Qed.

Lemma numch_lower s : forallb numch s = true -> lower s = s.
Proof.
  induction s as [|c s IH]; [reflexivity|]. cbn [forallb lower map]. rewrite andb_true_iff.
  intros [H1 H2]. rewrite (numch_lower1 _ H1). f_equal. now apply IH.
Qed.
