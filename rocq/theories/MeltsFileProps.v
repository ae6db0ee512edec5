(** Properties C23-C26, C38, C39: the .melts input file. *)
From Coq Require Import Ascii String List Bool Arith ZArith QArith Qcanon Lia.
From Verif Require Import Str Num Tables MeltsFileModel MeltsFileSpec MeltsFileProofs.
Import ListNotations.
Local Open Scope nat_scope.
Local Open Scope list_scope.

(** -------- a concrete run used as a witness -------- *)
Definition ex_mw : list Qc := repeat (Q2Qc (601 # 10)) 19.
Definition ex_sol : list solid := of_table tbl_meltsSolids.
Definition ex_run (path : Z) : settings :=
  mkS (lit "run") (repeat (Q2Qc (10 # 601)) 19) (Q2Qc (147315 # 100)) (Q2Qc 500)
      (Q2Qc (-3)) (Q2Qc (-10)) zero zero zero path (Q2Qc (3 # 10))
      (false :: repeat true (nphases ex_sol - 1)) true false true true false false false
      (Q2Qc 1000) zero zero.

(** the tables shipped with the code satisfy the hypothesis [table_ok] for the
    three liquid-based calculation modes *)
Definition table_okb (sol : list solid) : bool :=
  forallb (forallb label_char) (phase_labels sol) &&
  (fix nd l := match l with [] => true | x :: l' => negb (existsb (streqb x) l') && nd l' end) (phase_labels sol).
Lemma table_okb_ok sol : table_okb sol = true -> table_ok sol.
Proof.
  unfold table_okb, table_ok. rewrite andb_true_iff. intros [H1 H2]. split.
  - induction (phase_labels sol) as [|x l IH]; [constructor|].
    cbn [forallb] in H1. apply andb_true_iff in H1. apply andb_true_iff in H2.
    constructor.
    + intro Hin. destruct H2 as [H2 _]. apply negb_true_iff in H2.
      assert (existsb (streqb x) l = true); [|congruence].
      apply existsb_exists. exists x. split; [exact Hin|]. now apply streqb_eq.
    + apply IH; tauto.
  - intros l Hl. rewrite forallb_forall in H1. now apply H1.
Qed.

Example table_ok_melts : table_ok (of_table tbl_meltsSolids).
Proof. apply table_okb_ok. vm_compute. reflexivity. Qed.
Example table_ok_fluid : table_ok (of_table tbl_meltsFluidSolids).
Proof. apply table_okb_ok. vm_compute. reflexivity. Qed.
Example table_ok_pmelts : table_ok (of_table tbl_pMeltsSolids).
Proof. apply table_okb_ok. vm_compute. reflexivity. Qed.

Ltac grid z := exists z; vm_compute; reflexivity.
Example ex_run_printable : printable ex_mw (ex_run 3) /\
  length (incSol (ex_run 3)) = nphases ex_sol /\ (assimMass (ex_run 3) <= 0)%Qc.
Proof.
  split; [|split; [vm_compute; reflexivity|vm_compute; discriminate]].
  unfold printable. split; [|split; [reflexivity|]].
  - cbn [ex_run bulk]. unfold ex_mw. cbn [repeat].
    repeat (constructor; [split; [intro H; apply (f_equal this) in H; vm_compute in H; discriminate
                                 |grid 10000%Z]|]). constructor.
  - split; [grid 120000%Z|]. split; [vm_compute; discriminate|].
    split; [grid 50000%Z|]. split; [grid (-300)%Z|]. split; [grid (-1000)%Z|].
    repeat (split; [grid 0%Z|]). grid 3%Z.
Qed.

(** C23. Whatever was in the interface before ([s0]), saving settings [s] and
    loading the file restores them, for every table of phases with lower-case
    distinct phase labels, every composition, T >= 0 C, P, increments, one of
    the six plain buffers, any offset, any set of suppressed phases and modes,
    provided the numbers fit the file's decimal format and there is no
    assimilant. *)
Theorem C23_save_load_roundtrip : forall sol mw ttl s av s0,
  table_ok sol -> printable mw s -> has nl ttl = false ->
  (0 <= fo2Path s <= 5)%Z -> (assimMass s <= 0)%Qc ->
  length (incSol s) = nphases sol ->
  exists s', load sol mw s0 (save_text sol mw ttl s av)
             = Some (s', repeat zero (length sol + length bulk_labels + 1))
    /\ same_settings s s' /\ title s' = ttl.
Proof. exact load_save_ok. Qed.
Print Assumptions C23_save_load_roundtrip.

Theorem C23_nonvacuous : exists s',
  load ex_sol ex_mw (ex_run 0) (save_text ex_sol ex_mw (lit "run") (ex_run 3) [])
    = Some (s', repeat zero (length ex_sol + length bulk_labels + 1))
  /\ same_settings (ex_run 3) s' /\ title s' = lit "run".
Proof.
  destruct ex_run_printable as (A & B & C).
  apply C23_save_load_roundtrip; auto.
  - exact table_ok_melts.
  - cbn. lia.
Qed.

(** C24 is false of the code: with any of the buffers QFM+n (codes 6..19) the
    file reloads as plain QFM with the user offset unchanged, i.e. the n is
    lost.  The consequence for log fO2 is drawn in [Fo2Props]. *)
Theorem C24_builtin_offset_lost : forall sol mw ttl s av s0,
  table_ok sol -> printable mw s -> has nl ttl = false ->
  (6 <= fo2Path s <= 19)%Z -> (assimMass s <= 0)%Qc ->
  length (incSol s) = nphases sol ->
  exists s' av', load sol mw s0 (save_text sol mw ttl s av) = Some (s', av')
    /\ fo2Path s' = 3%Z /\ fo2Delta s' = fo2Delta s.
Proof. exact load_save_fmq. Qed.
Print Assumptions C24_builtin_offset_lost.

(** C25 is false of the code.  (a) no file whatever can restore an oxide of a
    liquid assimilant; (b) a solid assimilant reloads with the right mass of
    its own but twice the total assimilant mass. *)
Theorem C25_oxide_assimilants_never_restored : forall sol mw s0 text s' av' k,
  load sol mw s0 text = Some (s', av') -> k < length bulk_labels ->
  nth (length sol + k) av' zero = zero.
Proof. exact load_oxides_zero. Qed.
Print Assumptions C25_oxide_assimilants_never_restored.

Definition two_solids : list solid := [(lit "quartz", true); (lit "rutile", true)].
Definition assim_run : settings :=
  set_assim (mkS (lit "run") (repeat (Q2Qc (10 # 601)) 19) (Q2Qc (147315 # 100)) (Q2Qc 500)
      (Q2Qc (-3)) (Q2Qc (-10)) zero zero zero 3%Z (Q2Qc (3 # 10))
      [true; true] true false true true false false false (Q2Qc 1000) zero zero)
    (Q2Qc 1100) (Q2Qc 10) zero.
Definition assim_av : list Qc := [Q2Qc 10; zero] ++ repeat zero 20.
Theorem C25_assimilant_mass_refuted :
  ~ (forall sol mw ttl s av s0 s' av',
       load sol mw s0 (save_text sol mw ttl s av) = Some (s', av') ->
       assimMass s' = assimMass s).
Proof.
  intro H.
  specialize (H two_solids ex_mw (lit "run") assim_run assim_av assim_run).
  destruct (load two_solids ex_mw assim_run (save_text two_solids ex_mw (lit "run") assim_run assim_av))
    as [[s' av']|] eqn:E.
  - specialize (H s' av' eq_refl).
    apply (f_equal (option_map (fun r => this (assimMass (fst r))))) in E.
    cbn [option_map fst] in E. rewrite H in E. vm_compute in E. discriminate.
  - apply (f_equal (option_map (fun r => this (assimMass (fst r))))) in E.
    vm_compute in E. discriminate.
Qed.
Print Assumptions C25_assimilant_mass_refuted.

(** C26.  True part: besides the file only the title and the five increments
    held by the interface influence the result of a load. *)
Theorem C26_load_depends_only_on_increments_partial : forall sol mw s0 s1 text,
  title s0 = title s1 -> incT s0 = incT s1 -> incP s0 = incP s1 -> incH s0 = incH s1 ->
  incS s0 = incS s1 -> incV s0 = incV s1 ->
  load sol mw s0 text = load sol mw s1 text.
Proof. exact load_same_inc. Qed.
(** the same as a property of its own (C103) *)
Theorem C103_load_depends_only_on_increments : forall sol mw s0 s1 text,
  title s0 = title s1 -> incT s0 = incT s1 -> incP s0 = incP s1 -> incH s0 = incH s1 ->
  incS s0 = incS s1 -> incV s0 = incV s1 ->
  load sol mw s0 text = load sol mw s1 text.
Proof. exact C26_load_depends_only_on_increments_partial. Qed.
Print Assumptions C26_load_depends_only_on_increments_partial.

(** ... and they do: loading an (empty) file after another session keeps that
    session's temperature increment. *)
Theorem C26_load_history_independent_refuted :
  ~ (forall sol mw s0 s1 text, load sol mw s0 text = load sol mw s1 text).
Proof.
  intro H. specialize (H two_solids ex_mw (ex_run 3)
                         (set_inc (ex_run 3) (Q2Qc 5) zero zero zero zero) []).
  apply (f_equal (option_map (fun r => this (incT (fst r))))) in H.
  vm_compute in H. discriminate.
Qed.
Print Assumptions C26_load_history_independent_refuted.

(** C38. Saving never overwrites: for every file system with finitely many
    files the name search ends, and the name found is not in use. *)
Theorem C38_save_name_found : forall files ex run,
  (forall f, ex f = true -> In f files) ->
  exists r, fresh_title (length files + 2) ex run = Some r.
Proof. exact fresh_title_total. Qed.
Print Assumptions C38_save_name_found.

Theorem C38_save_never_overwrites : forall fuel ex run r,
  fresh_title fuel ex run = Some r ->
  ex (r ++ lit ".melts") = false /\
  exists tail, r = (match run with [] => lit "Untitled" | _ => run end) ++ tail.
Proof.
  intros fuel ex run r H. unfold fresh_title in H.
  set (orig := match run with [] => _ | _ => _ end) in *.
  destruct (title_loop_fresh fuel ex orig orig 1%N r) as [A B]; auto; [lia|].
  split; [exact A|]. destruct B as [->|(j & _ & ->)].
  - exists []. now rewrite app_nil_r.
  - eexists. reflexivity.
Qed.
Print Assumptions C38_save_never_overwrites.
Theorem C38_nonvacuous :
  fresh_title 9 (fun f => streqb f (lit "run.melts") || streqb f (lit "run (1).melts")) (lit "run")
  = Some (lit "run (2)").
Proof. vm_compute. reflexivity. Qed.

(** C39 is false: some texts abort the program (uncaught exception) instead of
    being refused; e.g. a title line without a title. *)
Theorem C39_load_never_aborts_refuted :
  ~ (forall sol mw s0 text, load sol mw s0 text <> None).
Proof.
  intro H. apply (H two_solids ex_mw (ex_run 3) (lit "Title:")). vm_compute. reflexivity.
Qed.
Print Assumptions C39_load_never_aborts_refuted.
