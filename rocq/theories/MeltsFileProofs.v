From Coq Require Import Ascii String List Bool Arith ZArith QArith Qcanon Lia.
From Verif Require Import Str Num Tables MeltsFileModel MeltsFileSpec.
Import ListNotations.
Local Open Scope nat_scope.
Local Open Scope list_scope.

Definition colon : ascii := ":"%char.

(** prefix of a pattern through its first ':' *)
Fixpoint cut (p : str) : str :=
  match p with
  | [] => []
  | c :: p' => if Ascii.eqb c colon then [c] else c :: cut p'
  end.

Lemma cut_prefix p : exists t, p = cut p ++ t.
Proof.
  induction p as [|c p [t IH]]; [now exists []|]. simpl. destruct (Ascii.eqb c colon).
  - now exists p.
  - exists t. simpl. now rewrite <- IH.
Qed.

Lemma cut_last p : has colon p = true -> exists p0, cut p = p0 ++ [colon].
Proof.
  induction p as [|c p IH]; [discriminate|]. unfold has. cbn [existsb cut]. intro H.
  destruct (Ascii.eqb c colon) eqn:E.
  - apply Ascii.eqb_eq in E. subst. now exists [].
  - rewrite Ascii.eqb_sym in H. rewrite E in H. simpl in H. destruct (IH H) as [p0 ->].
    now exists (c :: p0).
Qed.

Lemma cut_contains p s : containsb p s = true -> containsb (cut p) s = true.
Proof.
  rewrite !containsb_spec. intros (a & b & ->). destruct (cut_prefix p) as [t Ht].
  exists a, (t ++ b). rewrite Ht at 1. now rewrite <- !app_assoc.
Qed.

Definition kind_eqb (a b : kind) : bool :=
  match a, b with
  | KTitle, KTitle | KComp, KComp | KIT, KIT | KIP, KIP | KFT, KFT | KFP, KFP
  | KIncT, KIncT | KIncP, KIncP | KIncH, KIncH | KIncS, KIncS | KIncV, KIncV
  | KPath, KPath | KOffset, KOffset | KSuppress, KSuppress | KFrS, KFrS | KFrL, KFrL
  | KFrF, KFrF | KMulti, KMulti | KIsH, KIsH | KIsS, KIsS | KIsV, KIsV
  | KAssim, KAssim | KOther, KOther => true
  | _, _ => false
  end.
Lemma kind_eqb_eq a b : kind_eqb a b = true -> a = b.
Proof. destruct a, b; simpl; congruence. Qed.

(** decidable condition on the fixed part of a line that settles its kind *)
Fixpoint fkb (ps : list (str * kind)) (pre : str) (k : kind) : bool :=
  match ps with
  | [] => kind_eqb k KOther
  | (p, k') :: ps' =>
      if containsb p pre then kind_eqb k' k
      else has colon p && negb (containsb (cut p) pre) && fkb ps' pre k
  end.

Lemma fkb_sound ok ps pre tail k :
  forallb ok tail = true -> ok colon = false ->
  fkb ps pre k = true -> first_kind ps (pre ++ tail) = k.
Proof.
  intros Ht Hc. induction ps as [|[p k'] ps IH]; cbn [fkb first_kind]; intro H.
  - symmetry. now apply kind_eqb_eq.
  - destruct (containsb p pre) eqn:E.
    + rewrite containsb_app_l by exact E. now apply kind_eqb_eq.
    + rewrite !andb_true_iff, negb_true_iff in H. destruct H as [[H1 H2] H3].
      destruct (containsb p (pre ++ tail)) eqn:F.
      * exfalso. apply cut_contains in F. destruct (cut_last _ H1) as [p0 Hp]. rewrite Hp in *.
        rewrite (containsb_notail ok) in F by assumption. congruence.
      * now apply IH.
Qed.

Lemma classify_sound ok pre tail k :
  forallb ok tail = true -> ok colon = false ->
  lower tail = tail ->
  containsb (lit "Title:") pre || containsb (lit "title:") pre = false ->
  fkb patterns (lower pre) k = true ->
  classify (pre ++ tail) = k.
Proof.
  intros Ht Hc Hl Hti Hk. unfold classify.
  change (lit "Title:") with (lit "Title" ++ [colon]).
  change (lit "title:") with (lit "title" ++ [colon]).
  rewrite !(containsb_notail ok) by assumption.
  change (lit "Title" ++ [colon]) with (lit "Title:").
  change (lit "title" ++ [colon]) with (lit "title:").
  rewrite Hti. rewrite lower_app, Hl. now apply fkb_sound with ok.
Qed.

Lemma numch_colon : numch colon = false. Proof. reflexivity. Qed.

Lemma num_at_fixed p q pre n :
  p <> O -> on_grid p q -> n = length pre -> num_at n (pre ++ fixed p q) = Some q.
Proof.
  intros Hp Hg Hn. unfold num_at. rewrite substr_app by exact Hn.
  rewrite <- (app_nil_r (fixed p q)). apply stod_fixed; auto.
Qed.

(** one line consisting of fixed text and a number *)
Ltac num_line k p q Hg :=
  unfold load_line;
  rewrite (classify_sound numch _ (fixed p q) k);
  [ rewrite lower_app, (numch_lower _ (fixed_numch p q));
    rewrite (num_at_fixed p q) by (first [exact Hg | discriminate | reflexivity]); reflexivity
  | apply fixed_numch | reflexivity | apply numch_lower, fixed_numch | reflexivity | reflexivity ].

Lemma line_IT sol d q (H : on_grid 2 q) :
  load_line sol d (lit "Initial Temperature: " ++ fixed 2 q)
  = Some (set_tp d q (l_ip d) (l_ft d) (l_fp d)).
Proof. num_line KIT 2 q H. Qed.
Lemma line_IP sol d q (H : on_grid 2 q) :
  load_line sol d (lit "Initial Pressure: " ++ fixed 2 q)
  = Some (set_tp d (l_it d) q (l_ft d) (l_fp d)).
Proof. num_line KIP 2 q H. Qed.
Lemma line_IncT sol d q (H : on_grid 2 q) :
  load_line sol d (lit "Increment Temperature: " ++ fixed 2 q)
  = Some (set_s d (set_inc (l_s d) q (incP (l_s d)) (incH (l_s d)) (incS (l_s d)) (incV (l_s d)))).
Proof. num_line KIncT 2 q H. Qed.
Lemma line_IncP sol d q (H : on_grid 2 q) :
  load_line sol d (lit "Increment Pressure: " ++ fixed 2 q)
  = Some (set_s d (set_inc (l_s d) (incT (l_s d)) q (incH (l_s d)) (incS (l_s d)) (incV (l_s d)))).
Proof. num_line KIncP 2 q H. Qed.
Lemma line_IncH sol d q (H : on_grid 2 q) :
  load_line sol d (lit "Increment Enthalpy: " ++ fixed 2 q)
  = Some (set_s d (set_inc (l_s d) (incT (l_s d)) (incP (l_s d)) q (incS (l_s d)) (incV (l_s d)))).
Proof. num_line KIncH 2 q H. Qed.
Lemma line_IncS sol d q (H : on_grid 2 q) :
  load_line sol d (lit "Increment Entropy: " ++ fixed 2 q)
  = Some (set_s d (set_inc (l_s d) (incT (l_s d)) (incP (l_s d)) (incH (l_s d)) q (incV (l_s d)))).
Proof. num_line KIncS 2 q H. Qed.
Lemma line_IncV sol d q (H : on_grid 2 q) :
  load_line sol d (lit "Increment Volume: " ++ fixed 2 q)
  = Some (set_s d (set_inc (l_s d) (incT (l_s d)) (incP (l_s d)) (incH (l_s d)) (incS (l_s d)) q)).
Proof. num_line KIncV 2 q H. Qed.
Lemma line_Offset sol d q (H : on_grid 1 q) :
  load_line sol d (lit "log fo2 Offset: " ++ fixed 1 q)
  = Some (set_s d (set_fo2 (l_s d) (fo2Path (l_s d)) q)).
Proof. num_line KOffset 1 q H. Qed.

Lemma line_title sol d t :
  load_line sol d (lit "Title: " ++ t) = Some (set_s d (set_title (l_s d) t)).
Proof.
  unfold load_line, classify.
  assert (E : containsb (lit "Title:") (lit "Title: " ++ t) = true) by (apply containsb_app_l; reflexivity).
  rewrite E. cbn [orb]. rewrite substr_app by reflexivity. reflexivity.
Qed.

(** the buffer a written buffer name is read back as *)
Definition loaded_path (p : Z) : Z := if (p <=? 5)%Z then p else 3%Z.

Lemma line_path sol d p : (0 <= p <= 19)%Z ->
  exists dl, load_line sol d (lit "log fo2 Path: " ++ path_name p)
  = Some (set_s d (set_fo2 (l_s d) (loaded_path p) dl)).
Proof.
  intro H.
  assert (C : (p = 0 \/ p = 1 \/ p = 2 \/ p = 3 \/ p = 4 \/ p = 5 \/ p = 6 \/ p = 7 \/ p = 8 \/ p = 9
     \/ p = 10 \/ p = 11 \/ p = 12 \/ p = 13 \/ p = 14 \/ p = 15 \/ p = 16 \/ p = 17 \/ p = 18 \/ p = 19)%Z) by lia.
  repeat (destruct C as [-> | C]; [eexists; reflexivity|]). subst. eexists; reflexivity.
Qed.

(** composition lines *)
Lemma find_label_sep ls k x num :
  forallb (fun l => negb (has space l) && negb (forallb numch l)) ls = true ->
  forallb numch num = true ->
  find_label ls k (x ++ space :: num) = find_label ls k x.
Proof.
  intros Hl Hn. revert k; induction ls as [|l ls IH]; intro k; [reflexivity|].
  cbn [forallb] in Hl. rewrite !andb_true_iff, !negb_true_iff in Hl. destruct Hl as [[H1 H2] H3].
  cbn [find_label]. rewrite containsb_sep by exact H1.
  rewrite (containsb_alpha numch l num Hn H2), orb_false_r.
  destruct (containsb l x); [reflexivity|]. now apply IH.
Qed.

Definition nth_label (i : nat) : str := nth i bulk_labels [].

Definition comp_pre_ok (i : nat) : bool :=
  let x := lit "Initial Composition: " ++ nth_label i in
  negb (containsb (lit "Title:") (x ++ [space]) || containsb (lit "title:") (x ++ [space]))
  && fkb patterns (lower (x ++ [space])) KComp
  && match find_label (map lower bulk_labels) 0 (lower x) with
     | Some (k, l) => (k =? i) && streqb l (lower (nth_label i))
     | None => false
     end.

Lemma comp_pre_all i : i < 19 -> comp_pre_ok i = true.
Proof.
  intro H.
  assert (A : forallb comp_pre_ok (seq 0 19) = true) by (vm_compute; reflexivity).
  rewrite forallb_forall in A. apply A. apply in_seq. lia.
Qed.

Lemma line_comp sol d i q : i < 19 -> on_grid 4 q ->
  load_line sol d (lit "Initial Composition: " ++ nth_label i ++ lit " " ++ fixed 4 q)
  = Some (set_comp d (upd (l_comp d) i q)).
Proof.
  intros Hi Hg. pose proof (comp_pre_all i Hi) as C. unfold comp_pre_ok in C.
  set (x := lit "Initial Composition: " ++ nth_label i) in *. cbv zeta in C.
  rewrite !andb_true_iff, negb_true_iff in C. destruct C as [[C1 C2] C3].
  replace (lit "Initial Composition: " ++ nth_label i ++ lit " " ++ fixed 4 q)
     with ((x ++ [space]) ++ fixed 4 q) by (unfold x; now rewrite <- !app_assoc).
  unfold load_line.
  rewrite (classify_sound numch (x ++ [space]) (fixed 4 q) KComp);
    [| apply fixed_numch | reflexivity | apply numch_lower, fixed_numch | exact C1 | exact C2].
  rewrite lower_app, (numch_lower _ (fixed_numch 4 q)).
  replace (lower (x ++ [space]) ++ fixed 4 q) with (lower x ++ space :: fixed 4 q)
    by (rewrite lower_app, <- app_assoc; reflexivity).
  rewrite find_label_sep; [| vm_compute; reflexivity | apply fixed_numch].
  destruct (find_label (map lower bulk_labels) 0 (lower x)) as [[k l]|]; [|discriminate].
  apply andb_true_iff in C3 as [E1 E2]. apply Nat.eqb_eq in E1. apply streqb_eq in E2. subst k l.
  replace (lower x ++ space :: fixed 4 q) with ((lower x ++ [space]) ++ fixed 4 q)
    by (now rewrite <- app_assoc).
  assert (N : num_at (length (lit "initial composition: " ++ lower (nth_label i)))
                ((lower x ++ [space]) ++ fixed 4 q) = Some q).
  { unfold num_at. rewrite <- app_assoc. rewrite substr_app.
    - cbn [app]. rewrite stod_space. rewrite <- (app_nil_r (fixed 4 q)). apply stod_fixed; auto.
    - unfold x. rewrite lower_app, !app_length. unfold lower. now rewrite !map_length. }
  rewrite N. reflexivity.
Qed.

(** suppress lines *)
Lemma label_char_lower1 c : label_char c = true -> lower1 c = c.
Proof. destruct c as [[] [] [] [] [] [] [] []]; vm_compute; congruence. Qed.
Lemma label_lower s : forallb label_char s = true -> lower s = s.
Proof.
  induction s as [|c s IH]; [reflexivity|]. cbn [forallb lower map]. rewrite andb_true_iff.
  intros [H1 H2]. rewrite (label_char_lower1 _ H1). f_equal. now apply IH.
Qed.

Lemma line_suppress sol d l j : forallb label_char l = true -> phase_index sol l 0 = Some j ->
  load_line sol d (lit "Suppress: " ++ l)
  = Some (set_s d (set_incSol (l_s d) (upd (incSol (l_s d)) j false))).
Proof.
  intros Hl Hj. unfold load_line.
  rewrite (classify_sound label_char (lit "Suppress: ") l KSuppress);
    [| exact Hl | reflexivity | now apply label_lower | reflexivity | reflexivity].
  rewrite lower_app, (label_lower _ Hl). rewrite substr_app by reflexivity.
  cbn [obind]. rewrite Hj. reflexivity.
Qed.

Lemma load_lines_app sol d a b :
  load_lines sol d (a ++ b) = obind (load_lines sol d a) (fun d' => load_lines sol d' b).
Proof.
  revert d; induction a as [|x a IH]; intro d; [reflexivity|].
  cbn [app load_lines]. destruct (load_line sol d x) as [d'|]; [|reflexivity]. apply IH.
Qed.

Lemma upd_length {A} (l : list A) i v : length (upd l i v) = length l.
Proof. revert i; induction l as [|x l IH]; intros [|i]; simpl; auto. Qed.

Lemma upd_app {A} (a b : list A) x v : upd (a ++ x :: b) (length a) v = a ++ v :: b.
Proof. induction a as [|y a IH]; simpl; [reflexivity|]. now rewrite IH. Qed.

(** all composition lines *)
Lemma load_comp_lines sol labels : forall mw bs d pre post,
  (forall k, k < length labels -> nth k labels [] = nth_label (length pre + k)) ->
  length pre + length labels = 19 ->
  length mw = length labels -> length bs = length labels ->
  Forall2 (fun w b => w <> zero /\ on_grid 4 (b * w)%Qc) mw bs ->
  l_comp d = pre ++ repeat zero (length labels) ++ post ->
  load_lines sol d (comp_lines labels mw bs)
  = Some (set_comp d (pre ++ map (fun wb => (snd wb * fst wb)%Qc) (combine mw bs) ++ post)).
Proof.
  induction labels as [|l labels IH]; intros mw bs d pre post Hn Hlen Hm Hb HF Hd.
  - destruct mw, bs; try discriminate. simpl in *. rewrite <- Hd. destruct d; reflexivity.
  - destruct mw as [|w mw]; [discriminate|]. destruct bs as [|b bs]; [discriminate|].
    inversion HF as [|? ? ? ? [Hw Hg] HF']; subst. cbn [comp_lines].
    cbn [length] in *.
    set (v := (b * w)%Qc) in *.
    assert (Hl : l = nth_label (length pre)).
    { specialize (Hn 0 ltac:(lia)). simpl in Hn. now rewrite Nat.add_0_r in Hn. }
    assert (HIH : forall d', l_comp d' = pre ++ v :: repeat zero (length labels) ++ post ->
       load_lines sol d' (comp_lines labels mw bs)
       = Some (set_comp d' (pre ++ v :: map (fun wb => (snd wb * fst wb)%Qc) (combine mw bs) ++ post))).
    { intros d' Hd'. rewrite (IH mw bs d' (pre ++ [v]) post).
      - now rewrite <- app_assoc.
      - intros k Hk. specialize (Hn (S k) ltac:(lia)). simpl in Hn. rewrite Hn.
        f_equal. rewrite app_length. simpl. lia.
      - rewrite app_length. simpl. lia.
      - lia.
      - lia.
      - exact HF'.
      - rewrite Hd'. now rewrite <- app_assoc. }
    cbn [combine map app]. change (snd (w, b) * fst (w, b))%Qc with v.
    unfold is0. destruct (Qc_eq_dec b 0) as [E|E].
    + cbn [app]. apply HIH. rewrite Hd. cbn [repeat]. unfold v. rewrite E.
      replace (0 * w)%Qc with zero; [reflexivity|]. unfold zero. ring.
    + cbn [app load_lines]. rewrite Hl. unfold v in *. rewrite line_comp by (lia || exact Hg).
      cbn [obind]. rewrite HIH.
      * destruct d; reflexivity.
      * cbn [l_comp set_comp]. rewrite Hd. cbn [repeat app]. now rewrite upd_app.
Qed.

(** all suppress lines *)
Lemma phase_index_app pre l rest :
  ~ In l (phase_labels pre) -> forall j,
  phase_index (pre ++ (l, true) :: rest) l j = Some (j + length (phase_labels pre)).
Proof.
  induction pre as [|[x [|]] pre IH]; intros Hn j; cbn [app phase_index].
  - rewrite streqb_refl. unfold phase_labels. simpl. f_equal. lia.
  - destruct (streqb l x) eqn:E.
    + exfalso. apply streqb_eq in E. subst. apply Hn. unfold phase_labels. simpl. auto.
    + rewrite IH. * unfold phase_labels. simpl. f_equal. lia.
      * intro H. apply Hn. unfold phase_labels. simpl. auto.
  - rewrite IH; [reflexivity|]. exact Hn.
Qed.

Lemma load_suppress_lines sol2 : forall sol1 inc2 d inc1,
  table_ok (sol1 ++ sol2) ->
  length inc1 = length (phase_labels sol1) ->
  length inc2 = length (phase_labels sol2) ->
  incSol (l_s d) = inc1 ++ repeat true (length inc2) ->
  load_lines (sol1 ++ sol2) d (suppress_lines sol2 inc2)
  = Some (set_s d (set_incSol (l_s d) (inc1 ++ inc2))).
Proof.
  induction sol2 as [|[l [|]] sol2 IH]; intros sol1 inc2 d inc1 Hok H1 H2 Hd.
  - unfold phase_labels in H2. simpl in H2. destruct inc2; [|discriminate].
    simpl in *. rewrite <- Hd. destruct d as [[]]; reflexivity.
  - unfold phase_labels in H2. simpl in H2. destruct inc2 as [|b inc2]; [discriminate|].
    cbn [suppress_lines].
    assert (Hsplit : sol1 ++ (l, true) :: sol2 = (sol1 ++ [(l, true)]) ++ sol2) by now rewrite <- app_assoc.
    assert (Hpl : phase_labels (sol1 ++ [(l, true)]) = phase_labels sol1 ++ [l]).
    { unfold phase_labels. rewrite filter_app, map_app. reflexivity. }
    assert (Hrec : forall d', incSol (l_s d') = (inc1 ++ [b]) ++ repeat true (length inc2) ->
       load_lines (sol1 ++ (l, true) :: sol2) d' (suppress_lines sol2 inc2)
       = Some (set_s d' (set_incSol (l_s d') (inc1 ++ b :: inc2)))).
    { intros d' Hd'. rewrite Hsplit. rewrite (IH (sol1 ++ [(l, true)]) inc2 d' (inc1 ++ [b])).
      - now rewrite <- app_assoc.
      - now rewrite <- Hsplit.
      - rewrite Hpl, !app_length. simpl. lia.
      - unfold phase_labels. now injection H2.
      - exact Hd'. }
    destruct b; cbn [app].
    + apply Hrec. rewrite Hd. now rewrite <- app_assoc.
    + destruct Hok as [Hnd Hch].
      assert (Hpa : phase_labels (sol1 ++ (l, true) :: sol2) = phase_labels sol1 ++ l :: phase_labels sol2).
      { unfold phase_labels. rewrite filter_app, map_app. reflexivity. }
      assert (Hc1 : forallb label_char l = true).
      { apply Hch. unfold phase_labels. rewrite filter_app, map_app. apply in_app_iff. right. left. reflexivity. }
      assert (Hc2 : phase_index (sol1 ++ (l, true) :: sol2) l 0 = Some (length inc1)).
      { rewrite phase_index_app.
        - rewrite H1. reflexivity.
        - assert (Hnd' : NoDup (phase_labels sol1 ++ l :: phase_labels sol2))
            by (unfold phase_labels in Hnd; rewrite filter_app, map_app in Hnd; exact Hnd).
          clear Hnd. rename Hnd' into Hnd. apply NoDup_remove_2 in Hnd. intro HI. apply Hnd. apply in_app_iff. auto. }
      cbn [load_lines]. rewrite (line_suppress _ d l (length inc1) Hc1 Hc2).
      cbn [obind]. rewrite Hrec.
      * destruct d as [[]]; reflexivity.
      * cbn [l_s set_s set_incSol incSol]. rewrite Hd. cbn [length repeat]. rewrite upd_app.
        now rewrite <- app_assoc.
  - cbn [suppress_lines].
    assert (Hsplit : sol1 ++ (l, false) :: sol2 = (sol1 ++ [(l, false)]) ++ sol2) by now rewrite <- app_assoc.
    rewrite Hsplit. apply IH.
    + now rewrite <- Hsplit.
    + rewrite H1. unfold phase_labels. rewrite filter_app, map_app. simpl. now rewrite app_nil_r.
    + exact H2.
    + exact Hd.
Qed.

Lemma has_app c a b : has c (a ++ b) = has c a || has c b.
Proof. apply existsb_app. Qed.

Lemma has_nl_num s : forallb numch s = true -> has nl s = false.
Proof.
  intro H. unfold has. destruct (existsb (Ascii.eqb nl) s) eqn:E; [|reflexivity].
  apply existsb_exists in E as (c & Hc & Hn). apply Ascii.eqb_eq in Hn. subst.
  rewrite forallb_forall in H. specialize (H _ Hc). discriminate.
Qed.
Lemma has_nl_label s : forallb label_char s = true -> has nl s = false.
Proof.
  intro H. unfold has. destruct (existsb (Ascii.eqb nl) s) eqn:E; [|reflexivity].
  apply existsb_exists in E as (c & Hc & Hn). apply Ascii.eqb_eq in Hn. subst.
  rewrite forallb_forall in H. specialize (H _ Hc). discriminate.
Qed.

Definition nonl (l : str) : bool := negb (has nl l).

Lemma nonl_num pre p q : has nl pre = false -> nonl (pre ++ fixed p q) = true.
Proof.
  intro H. unfold nonl. rewrite has_app, H. simpl. now rewrite has_nl_num by apply fixed_numch.
Qed.

Lemma nonl_path p : nonl (lit "log fo2 Path: " ++ path_name p) = true.
Proof.
  unfold path_name.
  repeat match goal with |- context [match ?x with _ => _ end] => destruct x; try reflexivity end.
Qed.

Lemma comp_lines_nonl labels : forall mw bs,
  forallb nonl labels = true -> forallb nonl (comp_lines labels mw bs) = true.
Proof.
  induction labels as [|l labels IH]; intros mw bs H; [reflexivity|].
  destruct mw as [|w mw]; [reflexivity|]. destruct bs as [|b bs]; [reflexivity|].
  cbn [forallb] in H. apply andb_true_iff in H as [H1 H2].
  cbn [comp_lines]. rewrite forallb_app, IH by exact H2. rewrite andb_true_r.
  destruct (is0 b); [reflexivity|]. cbn [forallb]. rewrite andb_true_r.
  rewrite !app_assoc. apply nonl_num. rewrite !has_app.
  unfold nonl in H1. apply negb_true_iff in H1. rewrite H1. reflexivity.
Qed.

Lemma suppress_lines_nonl sol : forall inc,
  (forall l, In l (phase_labels sol) -> forallb label_char l = true) ->
  forallb nonl (suppress_lines sol inc) = true.
Proof.
  induction sol as [|[l [|]] sol IH]; intros inc H; [reflexivity| |].
  - cbn [suppress_lines]. destruct inc as [|b inc]; [reflexivity|].
    rewrite forallb_app, IH.
    + rewrite andb_true_r. destruct b; [reflexivity|]. cbn [forallb]. rewrite andb_true_r.
      unfold nonl. rewrite has_app. rewrite (has_nl_label l); [reflexivity|].
      apply H. unfold phase_labels. simpl. auto.
    + intros l' Hl'. apply H. unfold phase_labels in *. simpl. auto.
  - cbn [suppress_lines]. apply IH. exact H.
Qed.

Lemma zdiv_mul mw : forall bs,
  Forall2 (fun w b => w <> zero /\ on_grid 4 (b * w)%Qc) mw bs ->
  zdiv (map (fun wb => (snd wb * fst wb)%Qc) (combine mw bs)) mw = bs.
Proof.
  induction mw as [|w mw IH]; intros bs H; inversion H as [|? b ? bs' [Hw _] H']; subst; [reflexivity|].
  cbn [combine map zdiv fst snd]. f_equal.
  - field. exact Hw.
  - now apply IH.
Qed.

Lemma forall2_len {A B} (R : A -> B -> Prop) l1 l2 : Forall2 R l1 l2 -> length l1 = length l2.
Proof. induction 1; simpl; auto. Qed.

Lemma qcompare_lt_false a b : (b <= a)%Qc -> qcompare_lt a b = false.
Proof.
  intro H. unfold qcompare_lt. destruct (Qccompare a b) eqn:E; auto.
  exfalso. apply Qclt_alt in E. apply (Qcle_not_lt _ _ H E).
Qed.

Lemma qmax0_nonneg a : (k27315 <= a)%Qc -> qmax0 (a - k27315)%Qc = (a - k27315)%Qc.
Proof.
  intro H. unfold qmax0. rewrite qcompare_lt_false; [reflexivity|].
  apply Qcle_minus_iff in H. exact H.
Qed.

Lemma fix_sign_zero inc i0 : fix_sign inc i0 zero = inc.
Proof.
  unfold fix_sign, is0. destruct (Qc_eq_dec zero 0) as [_|n]; [|exfalso; apply n; reflexivity].
  now rewrite andb_false_r.
Qed.

Lemma mode_lines_load sol d s :
  l_fs d = false -> l_fl d = false -> l_ff d = false ->
  multi (l_s d) = false -> isH (l_s d) = false -> isS (l_s d) = false -> isV (l_s d) = false ->
  load_lines sol d (mode_lines s)
  = Some (set_fr (set_s d (set_modes (l_s d) (multi s) (isH s) (isS s) (isV s)))
                 (frSol s) (frLiq s) (frFlu s)).
Proof.
  intros. destruct d as [[]]. cbn in *. subst.
  destruct s as [? ? ? ? ? ? ? ? ? ? ? ? fs fl ff m h e v ? ? ?]. unfold mode_lines. cbn.
  destruct fs, fl, ff, m, h, e, v; reflexivity.
Qed.

Definition same_but_path (a b : settings) : Prop :=
  bulk b = bulk a /\ tK b = tK a /\ pbar b = pbar a /\ same_increments a b /\
  fo2Delta b = fo2Delta a /\ incSol b = incSol a /\
  frSol b = frSol a /\ frLiq b = frLiq a /\ frFlu b = frFlu a /\ multi b = multi a /\
  isH b = isH a /\ isS b = isS a /\ isV b = isV a.

Lemma load_save_main sol mw ttl s av s0 :
  table_ok sol -> printable mw s -> has nl ttl = false ->
  (0 <= fo2Path s <= 19)%Z -> (assimMass s <= 0)%Qc ->
  length (incSol s) = nphases sol ->
  exists s', load sol mw s0 (save_text sol mw ttl s av)
             = Some (s', repeat zero (length sol + length bulk_labels + 1))
    /\ same_but_path s s' /\ fo2Path s' = loaded_path (fo2Path s) /\ title s' = ttl /\ assimMass s' = zero /\
    (isH s = true -> incT s' = incT s0 /\ incS s' = incS s0 /\ incV s' = incV s0) /\
    (isH s = false -> incH s' = incH s0).
Proof.
  intros Hok Hp Httl Hpath Hass Hinc.
  destruct Hp as (HF & Hbl & HgT & HT & HgP & Hg1 & Hg2 & Hg3 & Hg4 & Hg5 & HgD).
  assert (Hmw : length mw = 19) by (rewrite (forall2_len _ _ _ HF); exact Hbl).
  unfold load, save_text.
  rewrite getlines_concat.
  2:{ change (forallb nonl (save_lines sol mw ttl s av) = true).
      unfold save_lines. rewrite !forallb_app. rewrite !andb_true_iff. repeat split.
      - cbn [forallb]. rewrite andb_true_r. unfold nonl. rewrite has_app, Httl. reflexivity.
      - apply comp_lines_nonl. reflexivity.
      - cbn [forallb]. rewrite !nonl_num by reflexivity. reflexivity.
      - unfold inc_lines. destruct (isH s), (isS s), (isV s); cbn [forallb];
          rewrite !nonl_num by reflexivity; reflexivity.
      - cbn [forallb]. rewrite nonl_path, nonl_num by reflexivity. reflexivity.
      - apply suppress_lines_nonl. apply Hok.
      - unfold mode_lines. destruct (frSol s), (frLiq s), (frFlu s), (multi s), (isH s), (isS s), (isV s); reflexivity.
      - unfold assim_lines. rewrite qcompare_lt_false by exact Hass. reflexivity. }
  unfold save_lines.
  rewrite load_lines_app. cbn [load_lines]. rewrite line_title. cbn [obind].
  rewrite load_lines_app. erewrite load_comp_lines with (pre := []) (post := repeat zero 1);
    [| intros k Hk; reflexivity | reflexivity | exact Hmw | exact Hbl | exact HF | reflexivity].
  cbn [obind]. rewrite load_lines_app. cbn [load_lines].
  rewrite (qmax0_nonneg _ HT).
  rewrite line_IT by exact HgT. cbn [obind]. rewrite line_IP by exact HgP. cbn [obind].
  cbn [set_s set_comp set_tp l_s l_comp l_it l_ip l_ft l_fp l_fs l_fl l_ff l_av l_found l_liq].
  set (comp := map (fun wb : Qc * Qc => (snd wb * fst wb)%Qc) (combine mw (bulk s)) ++ repeat zero 1).
  (* increments *)
  set (sc := set_title (create_state sol s0) ttl).
  assert (Hi : exists t p h e v, forall d, l_s d = sc ->
     load_lines sol d (inc_lines s) = Some (set_s d (set_inc sc t p h e v)) /\
     (if isH s then p = incP s /\ h = incH s
      else if isS s then p = incP s /\ e = incS s
      else if isV s then t = incT s /\ v = incV s
      else t = incT s /\ p = incP s) /\
     (isH s = true -> t = incT s0 /\ e = incS s0 /\ v = incV s0) /\
     (isH s = false -> h = incH s0)).
  { unfold inc_lines. destruct (isH s); [|destruct (isS s); [|destruct (isV s)]].
    - exists (incT s0), (incP s), (incH s), (incS s0), (incV s0). intros d Hd.
      cbn [load_lines]. rewrite line_IncP by assumption. cbn [obind]. rewrite line_IncH by assumption.
      cbn [obind set_s l_s]. rewrite Hd. split; [reflexivity|]. split; [auto|]. split; [auto|discriminate].
    - exists (incT s0), (incP s), (incH s0), (incS s), (incV s0). intros d Hd.
      cbn [load_lines]. rewrite line_IncP by assumption. cbn [obind]. rewrite line_IncS by assumption.
      cbn [obind set_s l_s]. rewrite Hd. split; [reflexivity|]. split; [auto|]. split; [discriminate|auto].
    - exists (incT s), (incP s0), (incH s0), (incS s0), (incV s). intros d Hd.
      cbn [load_lines]. rewrite line_IncT by assumption. cbn [obind]. rewrite line_IncV by assumption.
      cbn [obind set_s l_s]. rewrite Hd. split; [reflexivity|]. split; [auto|]. split; [discriminate|auto].
    - exists (incT s), (incP s), (incH s0), (incS s0), (incV s0). intros d Hd.
      cbn [load_lines]. rewrite line_IncT by assumption. cbn [obind]. rewrite line_IncP by assumption.
      cbn [obind set_s l_s]. rewrite Hd. split; [reflexivity|]. split; [auto|]. split; [discriminate|auto]. }
  destruct Hi as (t & p & h & e & v & Hi).
  rewrite load_lines_app.
  match goal with |- context [load_lines sol ?d (inc_lines s)] =>
    destruct (Hi d eq_refl) as (Hi1 & Hi2 & Hi3 & Hi4) end.
  rewrite Hi1. cbn [obind]. clear Hi Hi1.
  rewrite load_lines_app. cbn [load_lines].
  match goal with |- context [load_line sol ?d (lit "log fo2 Path: " ++ path_name (fo2Path s))] =>
    destruct (line_path sol d (fo2Path s) Hpath) as [dl Hdl] end.
  rewrite Hdl. cbn [obind].
  rewrite line_Offset by exact HgD. cbn [obind].
  cbn [set_s set_comp set_tp l_s l_comp l_it l_ip l_ft l_fp l_fs l_fl l_ff l_av l_found l_liq].
  rewrite load_lines_app.
  match goal with |- context [load_lines sol ?d (suppress_lines sol (incSol s))] =>
    pose proof (load_suppress_lines sol [] (incSol s) d [] Hok eq_refl) as Hs end.
  change (([] : list solid) ++ sol) with sol in Hs.
  rewrite Hs; clear Hs.
  2:{ rewrite Hinc. unfold nphases, phase_labels. now rewrite map_length. }
  2:{ cbn. now rewrite Hinc. }
  cbn [obind app].
  rewrite load_lines_app. rewrite mode_lines_load by reflexivity. cbn [obind].
  assert (Ha : assim_lines sol s av = []).
  { unfold assim_lines. now rewrite qcompare_lt_false by exact Hass. }
  rewrite Ha. cbn [load_lines obind].
  eexists. split; [|split; [|split; [|split; [|split; [|split]]]]].
  - unfold finish.
    cbn [set_s set_comp set_tp set_fr l_s l_comp l_it l_ip l_ft l_fp l_fs l_fl l_ff l_av l_found l_liq
         fold_left andb]. reflexivity.
  - unfold same_but_path, same_increments.
    cbn -[Qcplus Qcminus zdiv firstn fix_sign bulk_labels].
    rewrite !fix_sign_zero.
    repeat split.
    + unfold comp. rewrite firstn_app.
      replace (length bulk_labels) with 19 by reflexivity.
      assert (L : length (map (fun wb : Qc * Qc => (snd wb * fst wb)%Qc) (combine mw (bulk s))) = 19).
      { rewrite map_length, combine_length, Hmw, Hbl. reflexivity. }
      rewrite L. rewrite firstn_all2 by lia. rewrite Nat.sub_diag. cbn [firstn]. rewrite app_nil_r.
      now apply zdiv_mul.
    + ring.
    + exact Hi2.
  - reflexivity.
  - reflexivity.
  - reflexivity.
  - intro Hh. cbn. rewrite fix_sign_zero. now apply Hi3.
  - intro Hh. cbn. now apply Hi4.
Qed.

Lemma load_save_ok sol mw ttl s av s0 :
  table_ok sol -> printable mw s -> has nl ttl = false ->
  (0 <= fo2Path s <= 5)%Z -> (assimMass s <= 0)%Qc ->
  length (incSol s) = nphases sol ->
  exists s', load sol mw s0 (save_text sol mw ttl s av)
             = Some (s', repeat zero (length sol + length bulk_labels + 1))
    /\ same_settings s s' /\ title s' = ttl.
Proof.
  intros H1 H2 H3 H4 H5 H6.
  destruct (load_save_main sol mw ttl s av s0 H1 H2 H3) as (s' & L & Hs & Hp & Ht & _); try assumption; [lia|].
  exists s'. split; [exact L|]. split; [|exact Ht].
  unfold same_but_path in Hs. unfold same_settings.
  assert (E : fo2Path s' = fo2Path s).
  { rewrite Hp. unfold loaded_path. destruct (Z.leb_spec (fo2Path s) 5); lia. }
  tauto.
Qed.

Lemma load_save_fmq sol mw ttl s av s0 :
  table_ok sol -> printable mw s -> has nl ttl = false ->
  (6 <= fo2Path s <= 19)%Z -> (assimMass s <= 0)%Qc ->
  length (incSol s) = nphases sol ->
  exists s' av', load sol mw s0 (save_text sol mw ttl s av) = Some (s', av')
    /\ fo2Path s' = 3%Z /\ fo2Delta s' = fo2Delta s.
Proof.
  intros H1 H2 H3 H4 H5 H6.
  destruct (load_save_main sol mw ttl s av s0 H1 H2 H3) as (s' & L & Hs & Hp & Ht & _); try assumption; [lia|].
  eexists s', _. split; [exact L|]. unfold same_but_path in Hs. split; [|tauto].
  rewrite Hp. unfold loaded_path. destruct (Z.leb_spec (fo2Path s) 5); lia.
Qed.

(** ---- history dependence (C26) ---- *)
Lemma load_same_inc sol mw s0 s1 text :
  title s0 = title s1 -> incT s0 = incT s1 -> incP s0 = incP s1 -> incH s0 = incH s1 ->
  incS s0 = incS s1 -> incV s0 = incV s1 ->
  load sol mw s0 text = load sol mw s1 text.
Proof.
  intros. unfold load. assert (E : create_state sol s0 = create_state sol s1).
  { unfold create_state. repeat match goal with H : _ = _ |- _ => rewrite H; clear H end. reflexivity. }
  now rewrite E.
Qed.

(** ---- liquid assimilants are never read (C25) ---- *)
Definition upperch (c : ascii) : bool :=
  let n := nat_of_ascii c in (65 <=? n) && (n <=? 90).

Lemma lower_no_upper s : existsb upperch (lower s) = false.
Proof.
  induction s as [|c s IH]; [reflexivity|]. cbn [lower map existsb].
  change (map lower1 s) with (lower s). rewrite IH, orb_false_r.
  destruct c as [[] [] [] [] [] [] [] []]; reflexivity.
Qed.

Lemma containsb_upper p s : existsb upperch p = true -> containsb p (lower s) = false.
Proof.
  intro Hp. apply containsb_alpha with (ok := fun c => negb (upperch c)).
  - pose proof (lower_no_upper s) as H. rewrite <- (negb_involutive (forallb _ _)).
    rewrite <- (negb_involutive true). f_equal. cbn [negb].
    clear Hp. induction (lower s) as [|c l IH]; [reflexivity|]. cbn [existsb forallb] in *.
    apply orb_false_iff in H as [H1 H2]. rewrite H1. cbn. now apply IH.
  - induction p as [|c p IH]; [discriminate|]. cbn [existsb forallb] in *.
    destruct (upperch c); [reflexivity|]. cbn in *. now apply IH.
Qed.

Lemma find_label_upper line : find_label bulk_labels 0 (lower line) = None.
Proof.
  assert (G : forall ls k, forallb (existsb upperch) ls = true -> find_label ls k (lower line) = None).
  { induction ls as [|l ls IH]; intros k H; [reflexivity|]. cbn [forallb find_label] in *.
    apply andb_true_iff in H as [H1 H2]. rewrite containsb_upper by exact H1. now apply IH. }
  apply G. reflexivity.
Qed.

Lemma upd_nth_other {A} (l : list A) i j v d : i <> j -> nth j (upd l i v) d = nth j l d.
Proof.
  revert i j; induction l as [|x l IH]; intros [|i] [|j] H; simpl; try easy. apply IH. lia.
Qed.

Lemma solid_index_lt sol l : forall i k ph, solid_index sol l i = Some (k, ph) -> k < i + length sol.
Proof.
  induction sol as [|[x p] sol IH]; intros i k ph H; [discriminate|]. cbn [solid_index] in H.
  destruct (streqb x l).
  - injection H as -> ->. simpl. lia.
  - apply IH in H. simpl. lia.
Qed.

(** oxide slots and the liquid flag are untouched by any line *)
Definition ox_zero (sol : list solid) (d : ld) : Prop :=
  l_liq d = false /\
  forall k, k < length bulk_labels -> nth (length sol + k) (l_av d) zero = zero.

Ltac crush_some :=
  repeat match goal with
  | H : Some _ = Some _ |- _ => injection H as <-
  | H : None = Some _ |- _ => discriminate H
  | H : obind ?x _ = Some _ |- _ => destruct x eqn:?; cbn [obind] in H
  | H : (if ?x then _ else _) = Some _ |- _ => destruct x eqn:?
  | H : context [let '(_, _) := ?x in _] |- _ => destruct x eqn:?
  end.

Lemma load_line_ox sol d raw d' : ox_zero sol d -> load_line sol d raw = Some d' -> ox_zero sol d'.
Proof.
  intros [H1 H2] H. unfold load_line in H.
  destruct (classify raw);
    try (crush_some; split; [exact H1|exact H2]).
  - (* KComp *)
    destruct (find_label (map lower bulk_labels) 0 (lower raw)) as [[i l]|]; crush_some;
      split; [exact H1|exact H2|exact H1|exact H2].
  - (* suppress *)
    destruct (substr 10 (lower raw)) as [l|]; [|discriminate]. cbn [obind] in H.
    destruct (phase_index sol l 0); crush_some; split; [exact H1|exact H2|exact H1|exact H2].
  - (* assim *)
    unfold assim_line in H. rewrite find_label_upper in H.
    destruct (containsb (lit "assimilant: temperature") (lower raw)); [crush_some; split; [exact H1|exact H2]|].
    destruct (containsb (lit "assimilant: mass") (lower raw)); [crush_some; split; [exact H1|exact H2]|].
    destruct (containsb (lit "assimilant: liquid mass") (lower raw)).
    { crush_some. split; [exact H1|]. intros k Hk. cbn [set_av l_av].
      assert (L19 : length bulk_labels = 19) by reflexivity. rewrite upd_nth_other by lia. now apply H2. }
    destruct (containsb (lit "units") (lower raw)); [crush_some; split; [exact H1|exact H2]|].
    destruct (containsb (lit "increments") (lower raw)); [crush_some; split; [exact H1|exact H2]|].
    destruct (get_words [] (lower raw)) as [|w0 [|w1 ws]];
      [crush_some; split; [exact H1|exact H2]|crush_some; split; [exact H1|exact H2]|].
    destruct (solid_index sol w1 0) as [[i ph]|] eqn:E; [|crush_some; split; [exact H1|exact H2]].
    apply solid_index_lt in E. simpl in E.
    destruct (num_at (length w1 + 13) (lower raw)); [|discriminate]. cbn [obind] in H.
    destruct ph; crush_some; split; try exact H1; intros k Hk; cbn [set_av l_av];
      rewrite upd_nth_other by lia; now apply H2.
Qed.

Lemma load_lines_ox sol ls : forall d d', ox_zero sol d -> load_lines sol d ls = Some d' -> ox_zero sol d'.
Proof.
  induction ls as [|l ls IH]; intros d d' H E; cbn [load_lines] in E.
  - now injection E as <-.
  - destruct (load_line sol d l) as [d1|] eqn:F; [|discriminate]. cbn [obind] in E.
    apply (IH d1); [|exact E]. now apply load_line_ox with d l.
Qed.

Lemma load_oxides_zero sol mw s0 text s' av' k :
  load sol mw s0 text = Some (s', av') -> k < length bulk_labels ->
  nth (length sol + k) av' zero = zero.
Proof.
  intros H Hk. unfold load in H.
  match type of H with obind (load_lines sol ?d _) _ = _ => set (d0 := d) in H end.
  destruct (load_lines sol d0 (getlines text)) as [d'|] eqn:E; [|discriminate].
  cbn [obind] in H. injection H as _ <-.
  assert (G : ox_zero sol d').
  { apply (load_lines_ox sol (getlines text) d0); [|exact E]. split; [reflexivity|].
    intros j Hj. unfold d0. cbn [l_av]. rewrite nth_repeat. reflexivity. }
  destruct G as [_ G]. now apply G.
Qed.

(** ---- file names ---- *)
Lemma numbered_inj orig a b : numbered orig a = numbered orig b -> a = b.
Proof.
  unfold numbered. intro H. apply app_inv_head in H. apply app_inv_head in H.
  apply app_inv_tail in H. apply (f_equal num_of) in H.
  destruct (digits_spec a) as [_ A]. destruct (digits_spec b) as [_ B]. congruence.
Qed.

Lemma title_loop_fresh fuel ex orig : forall t k r,
  (t = orig \/ exists j, (1 <= j)%N /\ t = numbered orig j) -> (1 <= k)%N ->
  title_loop fuel ex orig t k = Some r ->
  ex (r ++ lit ".melts") = false /\ (r = orig \/ exists j, (1 <= j)%N /\ r = numbered orig j).
Proof.
  induction fuel as [|f IH]; intros t k r Ht Hk H; [discriminate|]. cbn [title_loop] in H.
  destruct (ex (t ++ lit ".melts")) eqn:E.
  - apply IH in H; [exact H| |lia]. right. exists k. auto.
  - injection H as <-. auto.
Qed.

Lemma title_loop_term files ex orig :
  (forall f, ex f = true -> In f files) ->
  forall seen fuel t k,
  NoDup seen -> incl seen files -> ex (t ++ lit ".melts") = true ->
  ~ In (t ++ lit ".melts") seen ->
  (forall j, (k <= j)%N -> t <> numbered orig j) ->
  (forall j, (k <= j)%N -> ~ In (numbered orig j ++ lit ".melts") seen) ->
  length files < fuel + length seen ->
  title_loop fuel ex orig t k <> None.
Proof.
  intros Hfin seen fuel. revert seen. induction fuel as [|f IH]; intros seen t k Hnd Hincl Hex Hnin Hne Hfr Hlen.
  - exfalso. pose proof (NoDup_incl_length Hnd Hincl). lia.
  - cbn [title_loop]. rewrite Hex.
    set (t' := numbered orig k).
    destruct f as [|f'].
    { exfalso.
      assert (H : length ((t ++ lit ".melts") :: seen) <= length files).
      { apply NoDup_incl_length; [now constructor|]. intros x [<-|Hx]; [now apply Hfin|now apply Hincl]. }
      simpl in H. lia. }
    destruct (ex (t' ++ lit ".melts")) eqn:E'.
    + apply (IH ((t ++ lit ".melts") :: seen)).
      * now constructor.
      * intros x [<-|Hx]; [now apply Hfin|now apply Hincl].
      * exact E'.
      * intros [H|H].
        -- apply app_inv_tail in H. apply (Hne k); [lia|exact H].
        -- apply (Hfr k ltac:(lia) H).
      * intros j Hj H. apply numbered_inj in H. lia.
      * intros j Hj [H|H].
        -- apply app_inv_tail in H. apply (Hne j); [lia|exact H].
        -- apply (Hfr j ltac:(lia) H).
      * simpl. lia.
    + cbn [title_loop]. rewrite E'. discriminate.
Qed.

Lemma fresh_title_total files ex run :
  (forall f, ex f = true -> In f files) ->
  exists r, fresh_title (length files + 2) ex run = Some r.
Proof.
  intro Hfin. unfold fresh_title. set (orig := match run with [] => _ | _ => _ end).
  destruct (ex (orig ++ lit ".melts")) eqn:E.
  - destruct (title_loop (length files + 2) ex orig orig 1) as [r|] eqn:T; [eauto|].
    exfalso. revert T. apply (title_loop_term files ex orig Hfin []).
    + constructor.
    + intros x [].
    + exact E.
    + intros [].
    + intros j Hj H. unfold numbered in H. apply (f_equal (@length ascii)) in H.
      rewrite !app_length in H. simpl in H. lia.
    + intros j Hj [].
    + simpl. lia.
  - replace (length files + 2) with (S (length files + 1)) by lia. cbn [title_loop]. rewrite E. eauto.
Qed.
