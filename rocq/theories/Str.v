(** Byte strings and the std::string operations used by the C++ sources.
    No code of /repo is modelled here; the functions are the standard-library
    operations the modelled code calls. *)
From Coq Require Import Ascii String List Bool Arith Lia.
Import ListNotations.

Notation str := (list ascii).
Definition lit (s : string) : str := list_ascii_of_string s.

(** std::string operator== *)
Fixpoint streqb (a b : str) : bool :=
  match a, b with
  | [], [] => true
  | x :: a', y :: b' => Ascii.eqb x y && streqb a' b'
  | _, _ => false
  end.

(** [p] is a prefix of [s] *)
Fixpoint prefixb (p s : str) : bool :=
  match p, s with
  | [], _ => true
  | _ :: _, [] => false
  | x :: p', y :: s' => Ascii.eqb x y && prefixb p' s'
  end.

(** std::string::find(p) != npos *)
Fixpoint containsb (p s : str) : bool :=
  prefixb p s || match s with [] => false | _ :: s' => containsb p s' end.

(** std::string::substr(n): throws std::out_of_range (None) when n > size *)
Definition substr (n : nat) (s : str) : option str :=
  if n <=? length s then Some (skipn n s) else None.

(** ::tolower in the "C" locale, applied bytewise by std::transform *)
Definition lower1 (c : ascii) : ascii :=
  let n := nat_of_ascii c in
  if (65 <=? n) && (n <=? 90) then ascii_of_nat (n + 32) else c.
Definition lower (s : str) : str := map lower1 s.

Definition nl : ascii := ascii_of_nat 10.
Definition space : ascii := " "%char.

(** std::getline on a whole stream: the characters between newlines; a final
    piece is returned only when it is non-empty (no trailing newline). *)
Fixpoint getlines_aux (cur : str) (s : str) : list str :=
  match s with
  | [] => match cur with [] => [] | _ => [rev cur] end
  | c :: s' => if Ascii.eqb c nl then rev cur :: getlines_aux [] s'
               else getlines_aux (c :: cur) s'
  end.
Definition getlines (s : str) : list str := getlines_aux [] s.

Definition has (c : ascii) (s : str) : bool := existsb (Ascii.eqb c) s.

(** ---- lemmas ---- *)
Lemma streqb_eq a b : streqb a b = true <-> a = b.
Proof.
  revert b; induction a as [|x a IH]; destruct b as [|y b]; simpl; split; intro H; try easy.
  - apply andb_true_iff in H as [H1 H2]. apply Ascii.eqb_eq in H1. apply IH in H2. now subst.
  - injection H as -> ->. rewrite Ascii.eqb_refl. simpl. now apply IH.
Qed.

Lemma streqb_refl a : streqb a a = true.
Proof. now apply streqb_eq. Qed.

Lemma prefixb_spec p s : prefixb p s = true <-> exists t, s = p ++ t.
Proof.
  revert s; induction p as [|x p IH]; intro s; simpl.
  - split; eauto.
  - destruct s as [|y s]; split; intro H; try easy.
    + destruct H as [t H]; discriminate.
    + apply andb_true_iff in H as [H1 H2]. apply Ascii.eqb_eq in H1 as ->.
      apply IH in H2 as [t ->]. now exists t.
    + destruct H as [t H]. injection H as -> ->. rewrite Ascii.eqb_refl. simpl. apply IH. eauto.
Qed.

Lemma containsb_spec p s : containsb p s = true <-> exists a b, s = a ++ p ++ b.
Proof.
  induction s as [|y s IH]; simpl.
  - rewrite orb_false_r. rewrite prefixb_spec. split.
    + intros [t H]. exists [], t. exact H.
    + intros (a & b & H). symmetry in H. apply app_eq_nil in H as [-> H].
      apply app_eq_nil in H as [-> ->]. now exists [].
  - rewrite orb_true_iff, prefixb_spec, IH. split.
    + intros [[t H]|(a & b & H)].
      * exists [], t. exact H.
      * exists (y :: a), b. simpl. now rewrite H.
    + intros (a & b & H). destruct a as [|z a].
      * left. exists b. exact H.
      * right. injection H as -> H. now exists a, b.
Qed.

Lemma containsb_app_l p a b : containsb p a = true -> containsb p (a ++ b) = true.
Proof.
  rewrite !containsb_spec. intros (u & v & ->). exists u, (v ++ b).
  now rewrite <- !app_assoc.
Qed.

Lemma containsb_app_r p a b : containsb p b = true -> containsb p (a ++ b) = true.
Proof.
  rewrite !containsb_spec. intros (u & v & ->). exists (a ++ u), v.
  now rewrite <- !app_assoc.
Qed.

(** Splitting an occurrence over a concatenation. *)
Lemma app_split {A} (a b c d : list A) :
  a ++ b = c ++ d ->
  (exists l, c = a ++ l /\ b = l ++ d) \/ (exists l, a = c ++ l /\ d = l ++ b).
Proof.
  revert c; induction a as [|x a IH]; intros c H; simpl in *.
  - left. exists c. auto.
  - destruct c as [|y c]; simpl in *.
    + right. exists (x :: a). auto.
    + injection H as -> H. destruct (IH _ H) as [(l & -> & ->)|(l & -> & ->)].
      * left. exists l. auto.
      * right. exists l. auto.
Qed.

(** A pattern whose last character cannot occur in the tail must lie in the head. *)
Lemma containsb_notail (ok : ascii -> bool) p0 c pre tail :
  forallb ok tail = true -> ok c = false ->
  containsb (p0 ++ [c]) (pre ++ tail) = containsb (p0 ++ [c]) pre.
Proof.
  intros Ht Hc. apply eq_true_iff_eq. split; [|apply containsb_app_l].
  rewrite !containsb_spec. intros (a & b & H).
  rewrite app_assoc in H.
  destruct (app_split _ _ _ _ H) as [(l & Hl & Hb)|(l & Hl & Hb)].
  - (* a ++ p = pre ++ l, tail = l ++ b *)
    destruct l as [|z l] using rev_ind.
    + rewrite app_nil_r in Hl. exists a, []. now rewrite app_nil_r.
    + clear IHl. exfalso. rewrite !app_assoc in Hl. apply app_inj_tail in Hl as [_ ->].
      rewrite Hb in Ht. rewrite !forallb_app in Ht. simpl in Ht.
      rewrite Hc in Ht. rewrite !andb_true_iff in Ht. now destruct Ht as [[_ [Ht _]] _].
  - exists a, l. now rewrite <- app_assoc in Hl.
Qed.

(** A separator that is not in the pattern. *)
Lemma containsb_sep p a s b :
  has s p = false ->
  containsb p (a ++ s :: b) = containsb p a || containsb p b.
Proof.
  intro Hs. apply eq_true_iff_eq. rewrite orb_true_iff. split.
  - rewrite !containsb_spec. intros (u & v & H).
    destruct (app_split _ _ _ _ H) as [(l & Hl & Hb)|(l & Hl & Hb)].
    + (* u = a ++ l, s :: b = l ++ p ++ v *)
      destruct l as [|z l]; simpl in Hb.
      * destruct p as [|q p]; simpl in *.
        -- left. exists [], a. reflexivity.
        -- exfalso. injection Hb as Hq Hb. subst q. rewrite Ascii.eqb_refl in Hs. discriminate.
      * injection Hb as -> ->. right. now exists l, v.
    + (* a = u ++ l, p ++ v = l ++ s :: b *)
      destruct (app_split _ _ _ _ Hb) as [(k & Hk & Hv)|(k & Hk & Hv)].
      * (* l = p ++ k *) left. exists u, k. now rewrite Hl, Hk.
      * (* p = l ++ k, s :: b = k ++ v *)
        destruct k as [|z k]; simpl in Hv.
        -- left. exists u, []. rewrite app_nil_r in Hk. subst. now rewrite app_nil_r.
        -- exfalso. injection Hv as Hz Hv. subst z p. unfold has in Hs.
           rewrite existsb_app in Hs. simpl in Hs. rewrite Ascii.eqb_refl in Hs.
           now rewrite orb_true_r in Hs.
  - intros [H|H]; [now apply containsb_app_l|].
    change (s :: b) with ([s] ++ b). rewrite app_assoc. now apply containsb_app_r.
Qed.

(** A pattern holding a character outside the alphabet of [s] does not occur. *)
Lemma containsb_alpha (ok : ascii -> bool) p s :
  forallb ok s = true -> forallb ok p = false -> containsb p s = false.
Proof.
  intros Hs Hp. destruct (containsb p s) eqn:E; [|reflexivity]. exfalso.
  apply containsb_spec in E as (a & b & ->).
  rewrite !forallb_app, Hp in Hs. simpl in Hs. now rewrite andb_false_r in Hs.
Qed.

Lemma lower_app a b : lower (a ++ b) = lower a ++ lower b.
Proof. apply map_app. Qed.

Lemma getlines_aux_app cur a b :
  has nl a = false ->
  getlines_aux cur (a ++ nl :: b) = (rev cur ++ a) :: getlines_aux [] b.
Proof.
  revert cur; induction a as [|c a IH]; intros cur H.
  - simpl. now rewrite app_nil_r.
  - unfold has in H. cbn [existsb] in H. apply orb_false_iff in H as [H1 H2].
    cbn [app getlines_aux]. rewrite Ascii.eqb_sym in H1. rewrite H1.
    rewrite IH by exact H2. simpl. now rewrite <- app_assoc.
Qed.

(** Reading back what was written line by line. *)
Lemma getlines_concat ls :
  forallb (fun l => negb (has nl l)) ls = true ->
  getlines (flat_map (fun l => l ++ [nl]) ls) = ls.
Proof.
  induction ls as [|l ls IH]; [reflexivity|].
  cbn [forallb flat_map]. rewrite andb_true_iff, negb_true_iff. intros [H1 H2].
  unfold getlines. rewrite <- app_assoc. cbn [app].
  rewrite getlines_aux_app by exact H1. simpl. f_equal. now apply IH.
Qed.

Lemma skipn_app_len {A} (a b : list A) n : n = length a -> skipn n (a ++ b) = b.
Proof. intros ->. rewrite skipn_app, skipn_all, Nat.sub_diag. reflexivity. Qed.

Lemma substr_app (a b : str) n : n = length a -> substr n (a ++ b) = Some b.
Proof.
  intros ->. unfold substr. rewrite app_length.
  replace (length a <=? length a + length b) with true by (symmetry; apply Nat.leb_le; lia).
  now rewrite skipn_app_len.
Qed.
