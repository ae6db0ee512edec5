(** Theorems about the drawn curves (PlotModel.v). *)
From Coq Require Import Reals List Lia Lra Bool Arith.
Import ListNotations.
From Verif Require Import PlotModel.
Open Scope R_scope.

(** *** the specification *)
(** grams of phase p in a list of phases: all coexisting portions together *)
Definition massOf (p : nat) (ps : list (nat * R)) : R := fold_right Rplus 0 (map snd (filter (fun e => Nat.eqb (fst e) p) ps)).
(** the k-th phase of the table *)
Definition kth (types : list bool) (k : nat) : nat := nth k (phaseRows types) 0%nat.
Definition count (types : list bool) : nat := length (phaseRows types).
(** every phase reported is a phase of the table *)
Definition sound (types : list bool) (s : Step) : Prop := forall p m, In (p, m) (stSol s) \/ In (p, m) (stFrac s) -> nth p types false = true.
(** curve k has one point per step: the grams of the k-th phase in that step; it is drawn when the phase occurs *)
Definition shows (types : list bool) (get : Step -> list (nat * R)) (ss : list Step) (f : Family) : Prop :=
  length (masses f) = count types /\ length (seen f) = count types /\
  forall k, (k < count types)%nat ->
    nth k (masses f) [] = map (fun s => massOf (kth types k) (get s)) ss /\
    (nth k (seen f) false = true <-> exists s m, In s ss /\ In (kth types k, m) (get s)).
(** the plot shows these steps *)
Definition pictures (types : list bool) (ss : list Step) (p : Plot) : Prop :=
  temps p = map stT ss /\ shows types stSol ss (solids p) /\ shows types stFrac ss (fracs p) /\
  length (liquids p) = 19%nat /\ forall o, (o < 19)%nat -> nth o (liquids p) [] = map (liquidPoint o) ss.

(** *** places and phases *)
Lemma rows_cons b ts : phaseRows (b :: ts) = (if b then [0%nat] else []) ++ map S (phaseRows ts).
Proof.
  unfold phaseRows. cbn [length seq].
  assert (E : forall l, filter (fun i => nth i (b :: ts) false) (map S l) = map S (filter (fun i => nth i ts false) l)).
  { induction l as [|a l IH]; [reflexivity|]. cbn [map filter]. rewrite IH. change (nth (S a) (b :: ts) false) with (nth a ts false). destruct (nth a ts false); reflexivity. }
  rewrite <- seq_shift. cbn [filter]. change (nth 0 (b :: ts) false) with b. rewrite E. destruct b; reflexivity.
Qed.
Lemma place_cons b ts i : place (b :: ts) (S i) = match place ts i with Some k => Some (if b then S k else k) | None => None end.
Proof. unfold place. cbn [nth firstn filter]. destruct (nth i ts false); [|reflexivity]. destruct b; reflexivity. Qed.
Lemma place_there types : forall p, nth p types false = true -> exists k, place types p = Some k /\ (k < count types)%nat /\ kth types k = p.
Proof.
  induction types as [|b ts IH]; intros p H; [destruct p; discriminate|]. destruct p as [|p].
  - cbn in H. subst b. exists 0%nat. unfold count, kth. rewrite rows_cons. cbn. repeat split; lia.
  - cbn in H. destruct (IH p H) as (k & A & B & C). rewrite place_cons, A. unfold count, kth in *. rewrite rows_cons.
    exists (if b then S k else k). split; [reflexivity|]. rewrite app_length, map_length. destruct b; cbn [length app plus]; (split; [lia|]).
    + cbn [nth]. rewrite (nth_indep _ 0%nat 1%nat) by (rewrite map_length; lia). rewrite map_nth, C. reflexivity.
    + rewrite (nth_indep _ 0%nat 1%nat) by (rewrite map_length; lia). rewrite map_nth, C. reflexivity.
Qed.
Lemma rows_nodup types : NoDup (phaseRows types).
Proof. apply NoDup_filter, seq_NoDup. Qed.
Lemma kth_inj types j k : (j < count types)%nat -> (k < count types)%nat -> kth types j = kth types k -> j = k.
Proof. intros Hj Hk E. exact (proj1 (NoDup_nth (phaseRows types) 0%nat) (rows_nodup types) j k Hj Hk E). Qed.

(** *** vectors *)
Lemma bump_spec x : forall l i, (i < length l)%nat -> exists r, bump l i x = Some r /\ length r = length l /\
  forall j, nth j r 0 = nth j l 0 + (if Nat.eqb j i then x else 0).
Proof.
  induction l as [|a l IH]; intros i Hi; [cbn in Hi; lia|]. destruct i as [|i].
  - exists ((a + x) :: l). repeat split. intros [|j]; cbn; lra.
  - cbn in Hi. destruct (IH i ltac:(lia)) as (r & A & B & C). cbn. rewrite A. exists (a :: r). repeat split; [cbn; lia|].
    intros [|j]; cbn; [lra|apply C].
Qed.
Lemma bumpAt_spec x i : forall ls k, (k < length ls)%nat -> (i < length (nth k ls []))%nat -> exists r, bumpAt ls k i x = Some r /\ length r = length ls /\
  forall q, length (nth q r []) = length (nth q ls []) /\ forall j, nth j (nth q r []) 0 = nth j (nth q ls []) 0 + (if Nat.eqb q k && Nat.eqb j i then x else 0).
Proof.
  induction ls as [|l ls IH]; intros k Hk Hi; [cbn in Hk; lia|]. destruct k as [|k].
  - cbn in Hi. destruct (bump_spec x l i Hi) as (r & A & B & C). cbn. rewrite A. exists (r :: ls). repeat split.
    + destruct q; cbn; [exact B|reflexivity].
    + intros j. destruct q; cbn; [apply C|lra].
  - cbn in Hk, Hi. destruct (IH k ltac:(lia) Hi) as (r & A & B & C). cbn. rewrite A. exists (l :: r). split; [reflexivity|]. split; [cbn; lia|].
    intros [|q]; [split; [reflexivity|intros j; cbn; lra]|exact (C q)].
Qed.
Lemma mark_spec : forall l k, (k < length l)%nat -> exists r, mark l k = Some r /\ length r = length l /\ forall q, nth q r false = (Nat.eqb q k || nth q l false)%bool.
Proof.
  induction l as [|b l IH]; intros k Hk; [cbn in Hk; lia|]. destruct k as [|k].
  - exists (true :: l). repeat split. intros [|q]; reflexivity.
  - cbn in Hk. destruct (IH k ltac:(lia)) as (r & A & B & C). cbn. rewrite A. exists (b :: r). repeat split; [cbn; lia|]. intros [|q]; [reflexivity|apply C].
Qed.
Lemma grow_spec d : forall ls, grow (length ls) d ls = Some (map (fun l => l ++ repeat 0 d) ls).
Proof. induction ls as [|l ls IH]; [reflexivity|]. cbn. rewrite IH. reflexivity. Qed.

(** *** adding steps *)
Lemma addPhases_spec types i : forall ps f, (forall p m, In (p, m) ps -> nth p types false = true) ->
  length (masses f) = count types -> length (seen f) = count types -> (forall k, (k < count types)%nat -> (i < length (nth k (masses f) []))%nat) ->
  exists g, addPhases types i ps f = Some g /\ length (masses g) = count types /\ length (seen g) = count types /\
  forall k, (k < count types)%nat -> length (nth k (masses g) []) = length (nth k (masses f) []) /\
    (forall j, nth j (nth k (masses g) []) 0 = nth j (nth k (masses f) []) 0 + (if Nat.eqb j i then massOf (kth types k) ps else 0)) /\
    (nth k (seen g) false = true <-> nth k (seen f) false = true \/ exists m, In (kth types k, m) ps).
Proof.
  induction ps as [|[p m] ps IH]; intros f Ok L1 L2 Hi.
  - exists f. split; [reflexivity|]. split; [exact L1|]. split; [exact L2|]. intros k Hk. split; [reflexivity|]. split.
    + intros j. unfold massOf. cbn. destruct (Nat.eqb j i); lra.
    + split; [intros H; left; exact H|intros [H|[m []]]; exact H].
  - destruct (place_there types p) as (k0 & P1 & P2 & P3). { apply (Ok p m). left. reflexivity. }
    destruct (bumpAt_spec m i (masses f) k0) as (ms & A1 & A2 & A3). { lia. } { apply Hi, P2. }
    destruct (mark_spec (seen f) k0) as (se & B1 & B2 & B3). { lia. }
    destruct (IH (mkFam ms se)) as (g & C1 & C2 & C3 & C4).
    + intros q w H. apply (Ok q w). right. exact H.
    + cbn. lia.
    + cbn. lia.
    + intros k Hk. cbn. rewrite (proj1 (A3 k)). apply Hi, Hk.
    + exists g. cbn [addPhases]. rewrite P1, A1, B1. split; [exact C1|]. split; [exact C2|]. split; [exact C3|]. intros k Hk.
      destruct (C4 k Hk) as (D1 & D2 & D3). cbn [masses seen] in *. destruct (A3 k) as (E1 & E2). split; [lia|]. split.
      * intros j. rewrite D2, E2. unfold massOf. cbn [filter fst].
        destruct (Nat.eqb_spec k k0) as [K|K].
        { subst k. rewrite P3, Nat.eqb_refl. cbn [andb map fold_right snd]. destruct (Nat.eqb j i); lra. }
        { destruct (Nat.eqb_spec p (kth types k)) as [Q|Q].
          { exfalso. apply K. apply (kth_inj types); [exact Hk|exact P2|congruence]. }
          cbn [andb]. destruct (Nat.eqb j i); lra. }
      * rewrite D3, B3. rewrite orb_true_iff, Nat.eqb_eq. split.
        { intros [[H|H]|[w H]].
          - right. exists m. left. subst k. rewrite P3. reflexivity.
          - left. exact H.
          - right. exists w. right. exact H. }
        { intros [H|[w [H|H]]].
          - left. right. exact H.
          - left. left. apply (kth_inj types); [exact Hk|exact P2|]. congruence.
          - right. exists w. exact H. }
Qed.
Definition dflt : Step := mkStep 0 [] [] None.
Lemma addSteps_spec types get : forall ss i f, (forall s p m, In s ss -> In (p, m) (get s) -> nth p types false = true) ->
  length (masses f) = count types -> length (seen f) = count types -> (forall k, (k < count types)%nat -> (i + length ss <= length (nth k (masses f) []))%nat) ->
  exists g, addSteps types get i ss f = Some g /\ length (masses g) = count types /\ length (seen g) = count types /\
  forall k, (k < count types)%nat -> length (nth k (masses g) []) = length (nth k (masses f) []) /\
    (forall j, nth j (nth k (masses g) []) 0 = nth j (nth k (masses f) []) 0 + (if Nat.leb i j && Nat.ltb j (i + length ss) then massOf (kth types k) (get (nth (j - i) ss dflt)) else 0)) /\
    (nth k (seen g) false = true <-> nth k (seen f) false = true \/ exists s m, In s ss /\ In (kth types k, m) (get s)).
Proof.
  induction ss as [|s ss IH]; intros i f Ok L1 L2 Hi.
  - exists f. split; [reflexivity|]. split; [exact L1|]. split; [exact L2|]. intros k Hk. split; [reflexivity|]. split.
    + intros j. cbn [length]. destruct (Nat.leb_spec i j); destruct (Nat.ltb_spec j (i + 0)); cbn [andb]; try lia; lra.
    + split; [intros H; left; exact H|intros [H|(s & m & [] & _)]; exact H].
  - destruct (addPhases_spec types i (get s) f) as (h & A1 & A2 & A3 & A4); [intros p m H; apply (Ok s p m); [left; reflexivity|exact H]|exact L1|exact L2| |].
    { intros k Hk. pose proof (Hi k Hk). cbn [length] in *. lia. }
    destruct (IH (S i) h) as (g & B1 & B2 & B3 & B4); [intros t p m H; apply (Ok t p m); right; exact H|exact A2|exact A3| |].
    { intros k Hk. rewrite (proj1 (A4 k Hk)). pose proof (Hi k Hk). cbn [length] in *. lia. }
    exists g. cbn [addSteps]. rewrite A1. split; [exact B1|]. split; [exact B2|]. split; [exact B3|]. intros k Hk.
    destruct (A4 k Hk) as (C1 & C2 & C3). destruct (B4 k Hk) as (D1 & D2 & D3). split; [lia|]. split.
    + intros j. rewrite D2, C2. cbn [length].
      destruct (Nat.eqb_spec j i) as [E|E].
      * subst j. rewrite Nat.leb_refl. destruct (Nat.leb_spec (S i) i); [lia|]. destruct (Nat.ltb_spec i (i + S (length ss))); [|lia].
        cbn [andb]. rewrite Nat.sub_diag. cbn [nth]. lra.
      * destruct (Nat.leb_spec i j); destruct (Nat.leb_spec (S i) j); try lia; cbn [andb]; [|lra].
        replace (j - i)%nat with (S (j - S i)) by lia. cbn [nth].
        destruct (Nat.ltb_spec j (S i + length ss)); destruct (Nat.ltb_spec j (i + S (length ss))); try lia; lra.
    + rewrite D3, C3. split.
      * intros [[H|(m & H)]|(t & m & H & H')]; [left; exact H|right; exists s, m; split; [left; reflexivity|exact H]|right; exists t, m; split; [right; exact H|exact H']].
      * intros [H|(t & m & [H|H] & H')]; [left; left; exact H|left; right; exists m; subst t; exact H'|right; exists t, m; split; assumption].
Qed.

(** *** one refresh *)
Lemma skipn_in (A : Type) n (x : A) l : In x (skipn n l) -> In x l.
Proof. intros H. rewrite <- (firstn_skipn n l). apply in_or_app. right. exact H. Qed.
Lemma nth_skipn_at (A : Type) (d : A) l n j : (n <= j)%nat -> nth (j - n) (skipn n l) d = nth j l d.
Proof.
  revert l j. induction n as [|n IH]; intros l j H; [rewrite Nat.sub_0_r; reflexivity|]. destruct l as [|a l]; [cbn; destruct (j - S n)%nat, j; reflexivity|].
  destruct j as [|j]; [lia|]. cbn. apply IH. lia.
Qed.
Lemma nth_map_step (f : Step -> R) l i : (i < length l)%nat -> nth i (map f l) 0 = f (nth i l dflt).
Proof. intros H. rewrite (nth_indep _ 0 (f dflt)) by (rewrite map_length; exact H). apply map_nth. Qed.
Lemma refreshFam_spec types get shown new f : (forall s p m, In s (shown ++ new) -> In (p, m) (get s) -> nth p types false = true) ->
  (shown = [] -> f = mkFam [] []) -> (shown <> [] -> shows types get shown f) ->
  exists g, refreshFam types (count types) get (length shown) (shown ++ new) f = Some g /\ shows types get (shown ++ new) g.
Proof.
  intros Ok H0 H1. unfold refreshFam. rewrite skipn_app, skipn_all, Nat.sub_diag. cbn [skipn app].
  assert (Start : exists f1, (if Nat.eqb (length shown) 0 then Some (mkFam (masses f ++ repeat (repeat 0 (length (shown ++ new))) (count types)) (seen f ++ repeat false (count types)))
       else match grow (count types) (length (shown ++ new) - length shown) (masses f) with Some ms => Some (mkFam ms (seen f)) | None => None end) = Some f1 /\
     length (masses f1) = (count types) /\ length (seen f1) = (count types) /\ forall k, (k < (count types))%nat -> nth k (masses f1) [] = map (fun s => massOf (kth types k) (get s)) shown ++ repeat 0 (length new) /\
     (nth k (seen f1) false = true <-> exists s m, In s shown /\ In (kth types k, m) (get s))).
  { destruct (Nat.eqb_spec (length shown) 0) as [Z|Z].
    - assert (shown = []) as -> by (destruct shown; [reflexivity|discriminate]). rewrite (H0 eq_refl). cbn [masses seen app length].
      eexists. split; [reflexivity|]. cbn [masses seen]. rewrite !repeat_length. split; [reflexivity|]. split; [reflexivity|]. intros k Hk. split.
      + rewrite (nth_indep _ [] (repeat 0 (length new))) by (rewrite repeat_length; exact Hk). rewrite nth_repeat. reflexivity.
      + rewrite nth_repeat. split; [discriminate|intros (s & m & [] & _)].
    - assert (Ne : shown <> []) by (intros E; rewrite E in Z; apply Z; reflexivity). destruct (H1 Ne) as (A & B & C).
      replace (length (shown ++ new) - length shown)%nat with (length new) by (rewrite app_length; lia).
      assert (Gr : grow (count types) (length new) (masses f) = Some (map (fun l => l ++ repeat 0 (length new)) (masses f))) by (rewrite <- A; apply grow_spec).
      rewrite Gr.
      eexists. split; [reflexivity|]. cbn [masses seen]. rewrite map_length. split; [exact A|]. split; [exact B|]. intros k Hk. destruct (C k Hk) as (D & E). split; [|exact E].
      rewrite (nth_indep _ [] ((fun l => l ++ repeat 0 (length new)) [])) by (rewrite map_length; lia).
      etransitivity; [exact (map_nth (fun l => l ++ repeat 0 (length new)) (masses f) [] k)|]. cbv beta. rewrite D. reflexivity. }
  destruct Start as (f1 & -> & A & B & C).
  destruct (addSteps_spec types get new (length shown) f1) as (g & D & E & F & G).
  - intros s p m Hs Hp. apply (Ok s p m); [apply in_or_app; right; exact Hs|exact Hp].
  - exact A.
  - exact B.
  - intros k Hk. rewrite (proj1 (C k Hk)), app_length, map_length, repeat_length. lia.
  - exists g. split; [exact D|]. split; [exact E|]. split; [exact F|]. intros k Hk. destruct (G k Hk) as (G1 & G2 & G3). destruct (C k Hk) as (C1 & C2). split.
    + apply (nth_ext _ _ 0 0).
      { rewrite G1, C1, !app_length, !map_length, repeat_length, app_length. reflexivity. }
      intros j Hj. rewrite G1, C1, app_length, map_length, repeat_length in Hj. rewrite G2, C1.
      rewrite nth_map_step by (rewrite app_length; exact Hj).
      destruct (Nat.leb_spec (length shown) j) as [L|L]; cbn [andb].
      * destruct (Nat.ltb_spec j (length shown + length new)); [|lia].
        rewrite app_nth2 by (rewrite map_length; exact L). rewrite nth_repeat. rewrite app_nth2 by exact L. lra.
      * rewrite app_nth1 by (rewrite map_length; exact L). rewrite app_nth1 by exact L. rewrite nth_map_step by exact L. lra.
    + rewrite G3, C2. split.
      * intros [(s & m & H & H')|(s & m & H & H')]; exists s, m; (split; [apply in_or_app; tauto|exact H']).
      * intros (s & m & H & H'). apply in_app_or in H. destruct H as [H|H]; [left|right]; exists s, m; split; assumption.
Qed.
Lemma refreshLiq_spec shown new ls : (shown = [] -> ls = []) -> (shown <> [] -> length ls = 19%nat /\ forall o, (o < 19)%nat -> nth o ls [] = map (liquidPoint o) shown) ->
  exists r, refreshLiq (length shown) (shown ++ new) ls = Some r /\ length r = 19%nat /\ forall o, (o < 19)%nat -> nth o r [] = map (liquidPoint o) (shown ++ new).
Proof.
  intros H0 H1. unfold refreshLiq. rewrite skipn_app, skipn_all, Nat.sub_diag. cbn [skipn app].
  assert (S : exists l1, (if Nat.eqb (length shown) 0 then ls ++ repeat [] 19 else ls) = l1 /\ length l1 = 19%nat /\ forall o, (o < 19)%nat -> nth o l1 [] = map (liquidPoint o) shown).
  { destruct (Nat.eqb_spec (length shown) 0) as [Z|Z].
    - assert (shown = []) as -> by (destruct shown; [reflexivity|discriminate]). rewrite (H0 eq_refl). eexists. split; [reflexivity|]. split; [reflexivity|].
      intros o Ho. cbn [app map]. apply nth_repeat.
    - assert (Ne : shown <> []) by (intros E; rewrite E in Z; apply Z; reflexivity). destruct (H1 Ne) as (A & B). eexists. split; [reflexivity|]. split; assumption. }
  destruct S as (l1 & -> & A & B). rewrite A. change (Nat.ltb 19 19) with false. cbv iota. eexists. split; [reflexivity|].
  rewrite map_length, seq_length. split; [reflexivity|]. intros o Ho.
  match goal with |- nth o (map ?f _) [] = _ => rewrite (nth_indep _ [] (f 0%nat)) by (rewrite map_length, seq_length; exact Ho) end.
  match goal with |- nth o (map ?f ?l) _ = _ => etransitivity; [exact (map_nth f l 0%nat o)|] end. cbv beta. rewrite seq_nth by exact Ho. cbn [plus]. destruct (Nat.ltb_spec o 19); [|lia]. rewrite B by exact Ho. rewrite map_app. reflexivity.
Qed.
(** a plot that shows the first steps comes to show them all *)
Lemma refresh_spec types shown new p : (forall s, In s (shown ++ new) -> sound types s) ->
  (shown = [] -> p = cleared) -> (shown <> [] -> pictures types shown p) ->
  exists q, refresh types (count types) (shown ++ new) p = Some q /\ pictures types (shown ++ new) q.
Proof.
  intros Ok H0 H1.
  assert (L : length (temps p) = length shown).
  { destruct shown as [|s0 sh]; [rewrite (H0 eq_refl); reflexivity|]. destruct (H1 ltac:(discriminate)) as (T & _). rewrite T. apply map_length. }
  unfold refresh. rewrite L.
  destruct (refreshFam_spec types stSol shown new (solids p)) as (a & A1 & A2).
  { intros s q m Hs Hp. apply (Ok s Hs q m). left. exact Hp. } { intros E. rewrite (H0 E). reflexivity. } { intros E. apply (H1 E). }
  destruct (refreshFam_spec types stFrac shown new (fracs p)) as (b & B1 & B2).
  { intros s q m Hs Hp. apply (Ok s Hs q m). right. exact Hp. } { intros E. rewrite (H0 E). reflexivity. } { intros E. apply (H1 E). }
  destruct (refreshLiq_spec shown new (liquids p)) as (c & C1 & C2).
  { intros E. rewrite (H0 E). reflexivity. } { intros E. apply (H1 E). }
  rewrite A1, B1, C1. eexists. split; [reflexivity|]. split; [|split; [exact A2|split; [exact B2|exact C2]]].
  cbn [temps]. rewrite skipn_app, skipn_all, Nat.sub_diag. cbn [skipn app]. rewrite map_app.
  destruct shown as [|s0 sh]; [rewrite (H0 eq_refl); reflexivity|]. destruct (H1 ltac:(discriminate)) as (T & _). rewrite T. reflexivity.
Qed.

(** *** sessions *)
Definition soundActs (types : list bool) (as_ : list Act) : Prop := Forall (fun a => match a with Do (Produce s) => sound types s | _ => True end) as_.
(** the plot shows the first steps of the data *)
Definition upTo (types : list bool) (s : Session) : Prop :=
  (forall x, In x (data s) -> sound types x) /\
  exists shown new, data s = shown ++ new /\ (shown = [] -> plot s = cleared) /\ (shown <> [] -> pictures types shown (plot s)).
Lemma event_upTo types e s s' : match e with Produce x => sound types x | _ => True end -> upTo types s -> event e s = Some s' -> upTo types s'.
Proof.
  intros He (Ok & shown & new & D & H0 & H1) E.
  assert (Same : data s' = data s -> plot s' = plot s -> upTo types s').
  { intros A B. split; [rewrite A; exact Ok|]. exists shown, new. rewrite A, B. auto. }
  destruct e as [|x| | | |]; cbn in E.
  - destruct (popup s || running s); [discriminate|]. injection E as <-. apply Same; reflexivity.
  - destruct (running s); [|discriminate]. injection E as <-. split.
    + cbn. intros y Hy. apply in_app_or in Hy. destruct Hy as [Hy|[Hy|[]]]; [apply Ok, Hy|subst y; exact He].
    + exists shown, (new ++ [x]). cbn. rewrite D, app_assoc. auto.
  - destruct (running s); [|discriminate]. injection E as <-. apply Same; reflexivity.
  - destruct (popup s && negb (running s)); [|discriminate]. injection E as <-. apply Same; reflexivity.
  - destruct (popup s && running s); [|discriminate]. injection E as <-. apply Same; reflexivity.
  - destruct (popup s || running s); [discriminate|]. injection E as <-. split; [intros x []|]. exists [], []. cbn. split; [reflexivity|]. split; [reflexivity|intros N; exfalso; apply N; reflexivity].
Qed.
Lemma frame_upTo types s s' : upTo types s -> frame types (count types) s = Drawn s' -> upTo types s' /\ (loaded s = true -> pictures types (data s') (plot s')).
Proof.
  intros (Ok & shown & new & D & H0 & H1) E. unfold frame in E. destruct (popup s) eqn:P; [discriminate|].
  destruct (Nat.eqb_spec (length (data s)) 0) as [Z|Z]; [discriminate|].
  destruct (loaded s) eqn:Ld.
  - destruct (refresh_spec types shown new (plot s)) as (q & A & B); [rewrite <- D; exact Ok|exact H0|exact H1|]. rewrite <- D in A, B. rewrite A in E.
    destruct (Nat.eqb (length (temps q)) 0); [discriminate|]. injection E as <-. split; [|intros _; exact B].
    split; [exact Ok|]. exists (data s), []. cbn [data plot]. rewrite app_nil_r. split; [reflexivity|]. split; [intros Q; rewrite Q in Z; exfalso; apply Z; reflexivity|intros _; exact B].
  - destruct (Nat.eqb (length (temps (plot s))) 0); [discriminate|]. injection E as <-. split; [|discriminate].
    split; [exact Ok|]. exists shown, new. auto.
Qed.
Lemma opened_upTo types : upTo types opened.
Proof. split; [intros x []|]. exists [], []. split; [reflexivity|]. split; [reflexivity|intros N; exfalso; apply N; reflexivity]. Qed.
Lemma history_upTo types : forall as_ s s', soundActs types as_ -> upTo types s -> history types (count types) as_ s = Some s' -> upTo types s'.
Proof.
  induction as_ as [|a r IH]; intros s s' So U E; [injection E as <-; exact U|]. inversion So as [|? ? S1 S2]; subst. destruct a as [e|]; cbn in E.
  - destruct (event e s) as [t|] eqn:Et; [|discriminate]. apply (IH t); [exact S2| |exact E]. apply (event_upTo types e s); assumption.
  - destruct (frame types (count types) s) as [| | |t] eqn:Et; try discriminate.
    + apply (IH s); assumption.
    + apply (IH t); [exact S2| |exact E]. apply (frame_upTo types s); assumption.
Qed.
(** C220: whatever the session - runs, stops, resets, looks - the curves hold the masses of the first so many steps *)
Theorem C220 : forall types as_ s, soundActs types as_ -> history types (count types) as_ opened = Some s ->
  plot s = cleared \/ exists n, (0 < n <= length (data s))%nat /\ pictures types (firstn n (data s)) (plot s).
Proof.
  intros types as_ s So E. destruct (history_upTo types as_ opened s So (opened_upTo types) E) as (_ & shown & new & D & H0 & H1).
  destruct shown as [|x sh]; [left; apply H0; reflexivity|]. right. exists (length (x :: sh)). rewrite D, app_length. split; [cbn; lia|].
  rewrite firstn_app, firstn_all, Nat.sub_diag, firstn_O, app_nil_r. apply H1. discriminate.
Qed.
(** and right after a calculation has ended and its window closed, a look shows them all *)
Theorem C220_fresh : forall types as_ s, soundActs types as_ -> history types (count types) as_ opened = Some s -> popup s = false -> loaded s = true -> data s <> [] ->
  exists t, frame types (count types) s = Drawn t /\ data t = data s /\ pictures types (data t) (plot t).
Proof.
  intros types as_ s So E P Ld Ne. pose proof (history_upTo types as_ opened s So (opened_upTo types) E) as U.
  pose proof U as (Ok & shown & new & D & H0 & H1). unfold frame. rewrite P, Ld.
  destruct (Nat.eqb_spec (length (data s)) 0) as [Z|Z]; [destruct (data s); [contradiction|discriminate]|].
  destruct (refresh_spec types shown new (plot s)) as (q & A & B); [rewrite <- D; exact Ok|exact H0|exact H1|]. rewrite <- D in A, B. rewrite A.
  assert (T : length (temps q) = length (data s)) by (rewrite (proj1 B); apply map_length). rewrite T.
  destruct (Nat.eqb_spec (length (data s)) 0); [contradiction|]. eexists. split; [reflexivity|]. split; [reflexivity|exact B].
Qed.
Lemma pictures_reads types ss p d : pictures types ss p -> (length d <= length ss)%nat -> forall r u l, readsWithin (mkSes d r u l p).
Proof.
  intros (T & (A1 & A2 & A3) & (B1 & B2 & B3) & L & L') Hd r u l. unfold readsWithin. cbn [data plot].
  split; [rewrite T, map_length; exact Hd|]. split; [|split].
  - intros k Hk. destruct (Nat.lt_ge_cases k (count types)) as [Q|Q]; [rewrite (proj1 (A3 k Q)), map_length; exact Hd|].
    rewrite nth_overflow in Hk by lia. discriminate.
  - intros k Hk. destruct (Nat.lt_ge_cases k (count types)) as [Q|Q]; [rewrite (proj1 (B3 k Q)), map_length; exact Hd|].
    rewrite nth_overflow in Hk by lia. discriminate.
  - intros o Ho. rewrite L' by exact Ho. rewrite map_length. exact Hd.
Qed.

(** *** drawing within the vectors *)
(** without the Stop button the plot shows everything whenever the tab can be seen *)
Definition whole (types : list bool) (s : Session) : Prop :=
  (running s = true -> popup s = true) /\ (popup s = false -> loaded s = true \/ (data s = [] /\ plot s = cleared) \/ (data s <> [] /\ pictures types (data s) (plot s))).
Lemma event_whole types e s s' : e <> Stop -> whole types s -> event e s = Some s' -> whole types s'.
Proof.
  intros He (A & B) E. destruct e as [|x| | | |]; cbn in E; try contradiction.
  - destruct (popup s || running s); [discriminate|]. injection E as <-. split; [reflexivity|discriminate].
  - destruct (running s) eqn:R; [|discriminate]. injection E as <-. split; cbn [running popup]; intros; [apply A; reflexivity|]. rewrite (A eq_refl) in H. discriminate.
  - destruct (running s) eqn:R; [|discriminate]. injection E as <-. split; cbn [running popup]; [discriminate|]. intros P. rewrite (A eq_refl) in P. discriminate.
  - destruct (popup s && negb (running s)); [|discriminate]. injection E as <-. split; [discriminate|]. intros _. left. reflexivity.
  - destruct (popup s || running s); [discriminate|]. injection E as <-. split; [discriminate|]. intros _. right. left. split; reflexivity.
Qed.
Lemma frame_whole types s : upTo types s -> whole types s -> popup s = false ->
  (frame types (count types) s = Nothing /\ data s = []) \/ (exists t, frame types (count types) s = Drawn t /\ whole types t /\ readsWithin t /\ data t = data s /\ pictures types (data t) (plot t)).
Proof.
  intros (Ok & shown & new & D & H0 & H1) (A & B) P. unfold frame. rewrite P.
  destruct (Nat.eqb_spec (length (data s)) 0) as [Z|Z]; [left; split; [reflexivity|destruct (data s); [reflexivity|discriminate]]|]. right.
  assert (Q : exists q, (if loaded s then refresh types (count types) (data s) (plot s) else Some (plot s)) = Some q /\ pictures types (data s) q).
  { destruct (loaded s) eqn:Ld.
    - rewrite D. apply refresh_spec; [rewrite <- D; exact Ok|exact H0|exact H1].
    - destruct (B P) as [Q|[(Q & _)|(_ & Q)]]; [discriminate|rewrite Q in Z; exfalso; apply Z; reflexivity|]. exists (plot s). split; [reflexivity|exact Q]. }
  destruct Q as (q & -> & Q). assert (T : length (temps q) = length (data s)) by (rewrite (proj1 Q); apply map_length). rewrite T.
  destruct (Nat.eqb_spec (length (data s)) 0); [contradiction|]. eexists. split; [reflexivity|]. split; [|split; [|split; [reflexivity|exact Q]]].
  - split; cbn [running popup data plot loaded]; [intros R; rewrite <- P; apply A, R|]. intros _. right. right. split; [intros N; rewrite N in Z; apply Z; reflexivity|exact Q].
  - apply (pictures_reads types (data s)); [exact Q|lia].
Qed.
Lemma history_whole types : forall as_ s s', stopless as_ -> soundActs types as_ -> upTo types s -> whole types s -> history types (count types) as_ s = Some s' -> upTo types s' /\ whole types s'.
Proof.
  induction as_ as [|a r IH]; intros s s' St So U W E; [injection E as <-; split; assumption|].
  inversion St as [|? ? T1 T2]; subst. inversion So as [|? ? S1 S2]; subst. destruct a as [e|]; cbn in E.
  - destruct (event e s) as [t|] eqn:Et; [|discriminate]. apply (IH t); [exact T2|exact S2| | |exact E].
    + apply (event_upTo types e s); assumption.
    + apply (event_whole types e s); [intros C; apply T1; rewrite C; reflexivity|exact W|exact Et].
  - destruct (frame types (count types) s) as [| | |t] eqn:Et; try discriminate; [apply (IH s); assumption|].
    apply (IH t); [exact T2|exact S2| | |exact E].
    + apply (frame_upTo types s); assumption.
    + destruct (popup s) eqn:P; [unfold frame in Et; rewrite P in Et; discriminate|].
      destruct (frame_whole types s U W P) as [(F & _)|(u & F & Wu & _)]; rewrite Et in F; [discriminate|]. injection F as ->. exact Wu.
Qed.
(** C221, without the Stop button: a look at the tab never fails, shows every step and reads within the vectors *)
Theorem C221_partial : forall types as_ s, stopless as_ -> soundActs types as_ -> history types (count types) as_ opened = Some s -> popup s = false ->
  (frame types (count types) s = Nothing /\ data s = []) \/
  (exists t, frame types (count types) s = Drawn t /\ readsWithin t /\ data t = data s /\ pictures types (data t) (plot t)).
Proof.
  intros types as_ s St So E P.
  destruct (history_whole types as_ opened s St So (opened_upTo types)) as (U & W); [|exact E|].
  { split; [discriminate|]. intros _. right. left. split; reflexivity. }
  destruct (frame_whole types s U W P) as [F|(t & F & _ & R & D & Q)]; [left; exact F|right; exists t; auto].
Qed.
(** false with it: the thread saves one more step after the button; the next frame but one reads past every vector *)
Definition aStep : Step := mkStep 1200 [(0%nat, 5)] [] (Some (fun _ => 10)).
Theorem C221_refuted : exists types as_ s, soundActs types as_ /\ history types (count types) as_ opened = Some s /\ running s = false /\ popup s = false /\
  exists t, frame types (count types) s = Drawn t /\ ~ readsWithin t.
Proof.
  exists [true], [Do Start; Do (Produce aStep); Do Stop; Look; Do (Produce aStep); Do Finish].
  assert (So : sound [true] aStep). { intros p m [[H|[]]|[]]. injection H as <- <-. reflexivity. }
  eexists. split; [repeat constructor; exact So|]. split; [reflexivity|]. split; [reflexivity|]. split; [reflexivity|].
  eexists. split; [reflexivity|]. intros (H & _). cbn in H. lia.
Qed.
(** and if nothing had been saved when the button was pressed, the frame throws *)
Theorem C221_throws : exists types as_ s, soundActs types as_ /\ history types (count types) as_ opened = Some s /\ running s = false /\ popup s = false /\
  frame types (count types) s = Broken.
Proof.
  exists [true], [Do Start; Do Stop; Do (Produce aStep); Do Finish].
  assert (So : sound [true] aStep). { intros p m [[H|[]]|[]]. injection H as <- <-. reflexivity. }
  eexists. split; [repeat constructor; exact So|]. split; [reflexivity|]. split; [reflexivity|]. split; [reflexivity|]. reflexivity.
Qed.

(** *** names *)
(** C222: after the first choice of a version, the k-th name is that of the k-th phase, whose masses curve k draws *)
Theorem C222_partial : forall (A : Type) (label : nat -> A) types k d, (k < count types)%nat ->
  length (getPhaseNames label types []) = count types /\ nth k (getPhaseNames label types []) d = label (kth types k) /\ nth (kth types k) types false = true.
Proof.
  intros A label types k d Hk. unfold getPhaseNames, kth, count in *. cbn [app]. rewrite map_length. split; [reflexivity|]. split.
  - rewrite (nth_indep _ d (label 0%nat)) by (rewrite map_length; exact Hk). apply map_nth.
  - pose proof (nth_In (phaseRows types) 0%nat Hk) as H. unfold phaseRows in H. apply filter_In in H. apply H.
Qed.
(** C220, C221: two runs, a phase with two portions, a look after each; the second curve is 0, 5, 7 *)
Definition twoPortions : Step := mkStep 1100 [(2%nat, 2); (0%nat, 1); (2%nat, 3)] [(2%nat, 4)] None.
Definition later : Step := mkStep 1000 [(2%nat, 7)] [] None.
Definition twoRuns : list Act := [Do Start; Do (Produce aStep); Do (Produce twoPortions); Do Finish; Do Ready; Look; Do Start; Do (Produce later); Do Finish; Do Ready; Look].
Theorem C220_case : let types := [true; false; true] in exists s, soundActs types twoRuns /\ stopless twoRuns /\ history types (count types) twoRuns opened = Some s /\ popup s = false /\
  data s = [aStep; twoPortions; later] /\ nth 1 (masses (solids (plot s))) [] = [0; 5; 7] /\ nth 1 (seen (fracs (plot s))) false = true.
Proof.
  cbv zeta. let r := eval cbv -[Rplus IZR] in (history [true; false; true] (count [true; false; true]) twoRuns opened) in match r with Some ?s => exists s end.
  split; [|split; [|split; [cbv -[Rplus IZR]; reflexivity|]]].
  - assert (B : forall (p : nat) (m x y z : R), In (p, m) [(2%nat, x); (0%nat, y); (2%nat, z)] -> nth p [true; false; true] false = true).
    { intros p m x y z [H|[H|[H|[]]]]; injection H as <- _; reflexivity. }
    unfold soundActs, twoRuns. repeat (apply Forall_cons; [try exact I|]); [..|apply Forall_nil].
    + intros p m [[H|[]]|[]]. injection H as <- _. reflexivity.
    + intros p m [H|[H|[]]]; [exact (B p m 2 1 3 H)|injection H as <- _; reflexivity].
    + intros p m [[H|[]]|[]]. injection H as <- _. reflexivity.
  - unfold stopless, twoRuns. repeat (apply Forall_cons; [discriminate|]). apply Forall_nil.
  - split; [reflexivity|]. split; [reflexivity|]. split; [|reflexivity]. cbn [nth masses solids plot].
    assert (L : forall a b c, a = 0 -> b = 5 -> c = 7 -> [a; b; c] = [0; 5; 7]) by (intros a b c -> -> ->; reflexivity). apply L; lra.
Qed.
