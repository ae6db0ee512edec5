(** The .melts input file: writer and reader of the easyMelts interface,
    src/melts_interface.cpp:927-1364, at character level.
    Simplifications: numbers are exact rationals (no binary rounding, NaN or
    infinity); file-system errors are not modelled (the file can be opened);
    an uncaught C++ exception (std::out_of_range from substr,
    std::invalid_argument from stod) is the outcome [None]. *)
From Coq Require Import Ascii String List Bool Arith ZArith QArith Qcanon.
From Verif Require Import Str Num Tables.
Import ListNotations.
Local Open Scope nat_scope.
Local Open Scope list_scope.

(** solids[] as used here: label and type==PHASE (includes/silmin.h, Solids) *)
Notation solid := (str * bool)%type.
Definition of_table (t : list (string * bool * string)) : list solid :=
  map (fun e => (lit (fst (fst e)), snd (fst e))) t.

(** bulkSystem[i].label, includes/liq_struct_data.h:174-196 *)
Definition bulk_labels : list str := map lit tbl_bulk.

(** solids[i].na, sources/melts_support.c:300-316: number of COMPONENT entries
    following a PHASE entry, at least 1 *)
Fixpoint count_comps (l : list solid) : nat :=
  match l with
  | (_, false) :: l' => S (count_comps l')
  | _ => 0
  end.
Definition na (sol : list solid) (i : nat) : nat :=
  Nat.max (count_comps (skipn (S i) sol)) 1.

(** The part of MeltsInterface / SilminState that the file describes
    (include/melts_interface.hpp:803-809 step_inc; includes/silmin.h SilminState). *)
Record settings := mkS {
  title   : str;            (* m_RunTitle *)
  bulk    : list Qc;        (* p_SS->bulkComp, moles, index < nc *)
  tK      : Qc;             (* p_SS->T *)
  pbar    : Qc;             (* p_SS->P *)
  incT : Qc; incP : Qc; incH : Qc; incS : Qc; incV : Qc;   (* step_inc *)
  fo2Path : Z; fo2Delta : Qc;
  incSol  : list bool;      (* p_SS->incSolids[j], j-th PHASE *)
  frSol : bool; frLiq : bool; frFlu : bool;
  multi : bool; isH : bool; isS : bool; isV : bool;
  assimT : Qc; assimMass : Qc; assimLiqM : Qc  (* assimT, dspAssimMass, dspAssimLiqM *)
}.

Definition qcompare_lt (a b : Qc) : bool :=
  match Qccompare a b with Lt => true | _ => false end.
Definition qmax0 (a : Qc) : Qc := if qcompare_lt a 0 then Q2Qc 0 else a.
Definition is0 (a : Qc) : bool := if Qc_eq_dec a 0 then true else false.
Definition k27315 : Qc := Q2Qc (27315 # 100).

(** fo2 path names, src/melts_interface.cpp:979-1002 *)
Definition path_name (p : Z) : str :=
  lit (match p with
       | 1 => "HM" | 2 => "NNO" | 3 => "FMQ" | 4 => "COH" | 5 => "IW"
       | 6 => "+3FMQ" | 7 => "+2FMQ" | 8 => "+1FMQ" | 9 => "-1FMQ" | 10 => "-2FMQ"
       | 11 => "-3FMQ" | 12 => "-4FMQ" | 13 => "-5FMQ" | 14 => "-6FMQ" | 15 => "-7FMQ"
       | 16 => "-8FMQ" | 17 => "-9FMQ" | 18 => "+0.5FMQ" | 19 => "+1.5FMQ"
       | _ => "None"
       end%Z)%string.

(** src/melts_interface.cpp:951-953 *)
Fixpoint comp_lines (labels : list str) (mw bulk : list Qc) : list str :=
  match labels, mw, bulk with
  | l :: ls, w :: ws, b :: bs =>
      (if is0 b then [] else [lit "Initial Composition: " ++ l ++ lit " " ++ fixed 4 (b * w)%Qc])
      ++ comp_lines ls ws bs
  | _, _, _ => []
  end.

(** src/melts_interface.cpp:958-970 *)
Definition inc_lines (s : settings) : list str :=
  if isH s then [lit "Increment Pressure: " ++ fixed 2 (incP s);
                 lit "Increment Enthalpy: " ++ fixed 2 (incH s)]
  else if isS s then [lit "Increment Pressure: " ++ fixed 2 (incP s);
                      lit "Increment Entropy: " ++ fixed 2 (incS s)]
  else if isV s then [lit "Increment Temperature: " ++ fixed 2 (incT s);
                      lit "Increment Volume: " ++ fixed 2 (incV s)]
  else [lit "Increment Temperature: " ++ fixed 2 (incT s);
        lit "Increment Pressure: " ++ fixed 2 (incP s)].

(** src/melts_interface.cpp:1008-1016: i runs over solids, j over phases *)
Fixpoint suppress_lines (sol : list solid) (inc : list bool) : list str :=
  match sol with
  | [] => []
  | (_, false) :: sol' => suppress_lines sol' inc
  | (l, true) :: sol' =>
      match inc with
      | b :: inc' => (if b then [] else [lit "Suppress: " ++ l]) ++ suppress_lines sol' inc'
      | [] => []
      end
  end.

(** src/melts_interface.cpp:1018-1031 *)
Definition mode_lines (s : settings) : list str :=
  (if frSol s then [lit "Mode: Fractionate Solids"] else []) ++
  (if frLiq s then [lit "Mode: Fractionate Liquids"] else []) ++
  (if frFlu s then [lit "Mode: Fractionate Fluids"] else []) ++
  (if multi s then [lit "Mode: Multiple Liquids"] else []) ++
  (if isH s then [lit "Mode: Isenthalpic"] else []) ++
  (if isS s then [lit "Mode: Isentropic"] else []) ++
  (if isV s then [lit "Mode: Isochoric"] else []).

(** src/melts_interface.cpp:1043-1053 *)
Fixpoint assim_sol_lines (sol : list solid) (av : list Qc) (mass : Qc) : list str :=
  match sol, av with
  | (l, ph) :: sol', a :: av' =>
      (lit "Assimilant: " ++ l ++ lit " "
         ++ fixed 2 (if ph then (a / mass * Q2Qc 100)%Qc else a))
      :: assim_sol_lines sol' av' mass
  | _, _ => []
  end.
Fixpoint assim_ox_lines (labels : list str) (av : list Qc) : list str :=
  match labels, av with
  | l :: ls, a :: av' => (lit "Assimilant: " ++ l ++ lit " " ++ fixed 2 a) :: assim_ox_lines ls av'
  | _, _ => []
  end.

(** src/melts_interface.cpp:1033-1054 *)
Definition assim_lines (sol : list solid) (s : settings) (av : list Qc) : list str :=
  if qcompare_lt 0 (assimMass s) then
    [lit "Assimilant: Temperature " ++ fixed 2 (assimT s);
     lit "Assimilant: Mass " ++ fixed 2 (assimMass s);
     lit "Assimilant: Increments " ++ fixed 2 1%Qc;
     lit "Assimilant: Liquid Mass " ++ fixed 2 (assimLiqM s);
     lit "Assimilant: Units Wt %"]
    ++ assim_sol_lines sol av (assimMass s)
    ++ assim_ox_lines bulk_labels (skipn (length sol) av)
  else [].

(** SaveMeltsInputData, src/melts_interface.cpp:927-1059, after the file name
    [ttl] has been chosen (see [fresh_title]); the lines written, in order. *)
Definition save_lines (sol : list solid) (mw : list Qc) (ttl : str) (s : settings) (av : list Qc)
  : list str :=
  [lit "Title: " ++ ttl]
  ++ comp_lines bulk_labels mw (bulk s)
  ++ [lit "Initial Temperature: " ++ fixed 2 (qmax0 (tK s - k27315)%Qc);
      lit "Initial Pressure: " ++ fixed 2 (pbar s)]
  ++ inc_lines s
  ++ [lit "log fo2 Path: " ++ path_name (fo2Path s);
      lit "log fo2 Offset: " ++ fixed 1 (fo2Delta s)]
  ++ suppress_lines sol (incSol s)
  ++ mode_lines s
  ++ assim_lines sol s av.

Definition save_text sol mw ttl s av : str :=
  flat_map (fun l => l ++ [nl]) (save_lines sol mw ttl s av).

(** The title loop, src/melts_interface.cpp:937-947: [exists_] is the file
    system at the time of the call; [fuel] bounds the loop, None = still
    looping.  Decimal of the counter: std::to_string. *)
Definition numbered (orig : str) (k : N) : str := orig ++ lit " (" ++ digits k ++ lit ")".
Fixpoint title_loop (fuel : nat) (exists_ : str -> bool) (orig ttl : str) (k : N) : option str :=
  match fuel with
  | O => None
  | S f => if exists_ (ttl ++ lit ".melts")
           then title_loop f exists_ orig (numbered orig k) (k + 1)%N
           else Some ttl
  end.
Definition fresh_title (fuel : nat) (exists_ : str -> bool) (run : str) : option str :=
  let orig := match run with [] => lit "Untitled" | _ => run end in
  title_loop fuel exists_ orig orig 1%N.

(** ---------------------------------------------------------------- reader *)

(** kinds of line, in the order of the tests in src/melts_interface.cpp:1096-1296 *)
Inductive kind :=
  | KTitle | KComp | KIT | KIP | KFT | KFP | KIncT | KIncP | KIncH | KIncS | KIncV
  | KPath | KOffset | KSuppress | KFrS | KFrL | KFrF | KMulti | KIsH | KIsS | KIsV
  | KAssim | KOther.

(** patterns tested on the lower-cased line, in order (lines 1103-1244) *)
Definition patterns : list (str * kind) :=
  map (fun p => (lit (fst p), snd p))
  [("initial composition:", KComp); ("initial temperature:", KIT); ("initial pressure:", KIP);
   ("final temperature:", KFT); ("final pressure:", KFP);
   ("increment temperature:", KIncT); ("increment pressure:", KIncP);
   ("increment enthalpy:", KIncH); ("increment entropy:", KIncS); ("increment volume:", KIncV);
   ("log fo2 path:", KPath); ("log fo2 offset:", KOffset); ("suppress:", KSuppress);
   ("mode: fractionate solids", KFrS); ("mode: fractionate liquids", KFrL);
   ("mode: fractionate fluids", KFrF); ("mode: multiple liquids", KMulti);
   ("mode: isenthalpic", KIsH); ("mode: isentropic", KIsS); ("mode: isochoric", KIsV);
   ("assimilant: ", KAssim)]%string.

Fixpoint first_kind (ps : list (str * kind)) (line : str) : kind :=
  match ps with
  | [] => KOther
  | (p, k) :: ps' => if containsb p line then k else first_kind ps' line
  end.

(** src/melts_interface.cpp:1096-1102: the title test is made on the raw line *)
Definition classify (raw : str) : kind :=
  if containsb (lit "Title:") raw || containsb (lit "title:") raw then KTitle
  else first_kind patterns (lower raw).

(** loader state: the interface plus the local variables of LoadFromFile
    (src/melts_interface.cpp:1073-1084) *)
Record ld := mkL {
  l_s : settings;
  l_comp : list Qc;             (* composition[20] *)
  l_it : Qc; l_ip : Qc; l_ft : Qc; l_fp : Qc;
  l_fs : bool; l_fl : bool; l_ff : bool;
  l_av : list Qc;               (* assimilation_values, npc+nc+1 *)
  l_found : list nat;           (* assimilant_idx_found *)
  l_liq : bool                  (* assimilant_liquid_found *)
}.

Fixpoint upd {A} (l : list A) (i : nat) (v : A) : list A :=
  match l, i with
  | [], _ => []
  | _ :: l', O => v :: l'
  | x :: l', S i' => x :: upd l' i' v
  end.

(** first index whose (lower-cased) label occurs in the line, src/melts_interface.cpp:1107-1117 *)
Fixpoint find_label (labels : list str) (i : nat) (line : str) : option (nat * str) :=
  match labels with
  | [] => None
  | l :: ls => if containsb l line then Some (i, l) else find_label ls (S i) line
  end.

(** fo2 path, src/melts_interface.cpp:1154-1215: new path and, when given, new offset *)
Definition parse_path (path : str) : Z * option Qc :=
  let c (s : string) := containsb (lit s) path in
  let z n := Some (Q2Qc (inject_Z n)) in
  (if c "none"%string then (0, None)
  else if c "hm"%string then (1, None)
  else if c "nno"%string then (2, None)
  else if negb (c "+"%string) && negb (c "-"%string) && c "fmq"%string then (3, None)
  else if c "coh"%string then (4, None)
  else if c "iw"%string then (5, None)
  else if c "+3fmq"%string then (3, z 3)
  else if c "+2fmq"%string then (3, z 2)
  else if c "+1fmq"%string then (3, z 1)
  else if c "-1fmq"%string then (3, z (-1))
  else if c "-2fmq"%string then (3, z (-2))
  else if c "-3fmq"%string then (3, z (-3))
  else if c "-4fmq"%string then (3, z (-4))
  else if c "-5fmq"%string then (3, z (-5))
  else if c "-6fmq"%string then (3, z (-6))
  else if c "-7fmq"%string then (3, z (-7))
  else if c "-8fmq"%string then (3, z (-8))
  else if c "-9fmq"%string then (3, z (-9))
  else if c "+0.5fmq"%string then (3, Some (Q2Qc (1 # 2)))
  else if c "+1.5fmq"%string then (3, Some (Q2Qc (3 # 2)))
  else (0, None))%Z.

(** suppress: index (among phases) of the phase with exactly this label,
    src/melts_interface.cpp:1222-1233 *)
Fixpoint phase_index (sol : list solid) (label : str) (j : nat) : option nat :=
  match sol with
  | [] => None
  | (l, true) :: sol' => if streqb label l then Some j else phase_index sol' label (S j)
  | (_, false) :: sol' => phase_index sol' label j
  end.

(** GetWords, src/melts_interface.cpp:1055-1068: the last word is dropped *)
Fixpoint get_words (cur : str) (s : str) : list str :=
  match s with
  | [] => []
  | c :: s' => if Ascii.eqb c space then rev cur :: get_words [] s' else get_words (c :: cur) s'
  end.

(** first solids[] entry with this label, src/melts_interface.cpp:1274-1287 *)
Fixpoint solid_index (sol : list solid) (label : str) (i : nat) : option (nat * bool) :=
  match sol with
  | [] => None
  | (l, ph) :: sol' => if streqb l label then Some (i, ph) else solid_index sol' label (S i)
  end.

Definition set_s (d : ld) (s : settings) : ld :=
  mkL s (l_comp d) (l_it d) (l_ip d) (l_ft d) (l_fp d) (l_fs d) (l_fl d) (l_ff d)
      (l_av d) (l_found d) (l_liq d).
Definition set_inc (s : settings) (t p h en v : Qc) : settings :=
  mkS (title s) (bulk s) (tK s) (pbar s) t p h en v (fo2Path s) (fo2Delta s) (incSol s)
      (frSol s) (frLiq s) (frFlu s) (multi s) (isH s) (isS s) (isV s)
      (assimT s) (assimMass s) (assimLiqM s).
Definition set_fo2 (s : settings) (p : Z) (dl : Qc) : settings :=
  mkS (title s) (bulk s) (tK s) (pbar s) (incT s) (incP s) (incH s) (incS s) (incV s)
      p dl (incSol s) (frSol s) (frLiq s) (frFlu s) (multi s) (isH s) (isS s) (isV s)
      (assimT s) (assimMass s) (assimLiqM s).
Definition set_incSol (s : settings) (l : list bool) : settings :=
  mkS (title s) (bulk s) (tK s) (pbar s) (incT s) (incP s) (incH s) (incS s) (incV s)
      (fo2Path s) (fo2Delta s) l (frSol s) (frLiq s) (frFlu s) (multi s) (isH s) (isS s) (isV s)
      (assimT s) (assimMass s) (assimLiqM s).
Definition set_modes (s : settings) (m h e v : bool) : settings :=
  mkS (title s) (bulk s) (tK s) (pbar s) (incT s) (incP s) (incH s) (incS s) (incV s)
      (fo2Path s) (fo2Delta s) (incSol s) (frSol s) (frLiq s) (frFlu s) m h e v
      (assimT s) (assimMass s) (assimLiqM s).
Definition set_title (s : settings) (t : str) : settings :=
  mkS t (bulk s) (tK s) (pbar s) (incT s) (incP s) (incH s) (incS s) (incV s)
      (fo2Path s) (fo2Delta s) (incSol s) (frSol s) (frLiq s) (frFlu s)
      (multi s) (isH s) (isS s) (isV s) (assimT s) (assimMass s) (assimLiqM s).
Definition set_assim (s : settings) (t m l : Qc) : settings :=
  mkS (title s) (bulk s) (tK s) (pbar s) (incT s) (incP s) (incH s) (incS s) (incV s)
      (fo2Path s) (fo2Delta s) (incSol s) (frSol s) (frLiq s) (frFlu s)
      (multi s) (isH s) (isS s) (isV s) t m l.
Definition set_av (d : ld) (av : list Qc) (f : list nat) (lq : bool) : ld :=
  mkL (l_s d) (l_comp d) (l_it d) (l_ip d) (l_ft d) (l_fp d) (l_fs d) (l_fl d) (l_ff d) av f lq.
Definition set_tp (d : ld) (it ip ft fp : Qc) : ld :=
  mkL (l_s d) (l_comp d) it ip ft fp (l_fs d) (l_fl d) (l_ff d) (l_av d) (l_found d) (l_liq d).
Definition set_fr (d : ld) (a b c : bool) : ld :=
  mkL (l_s d) (l_comp d) (l_it d) (l_ip d) (l_ft d) (l_fp d) a b c (l_av d) (l_found d) (l_liq d).
Definition set_comp (d : ld) (c : list Qc) : ld :=
  mkL (l_s d) c (l_it d) (l_ip d) (l_ft d) (l_fp d) (l_fs d) (l_fl d) (l_ff d)
      (l_av d) (l_found d) (l_liq d).

Definition num_at (n : nat) (line : str) : option Qc :=
  match substr n line with Some t => stod t | None => None end.

Definition obind {A B} (o : option A) (f : A -> option B) : option B :=
  match o with Some a => f a | None => None end.

(** the assimilant line, src/melts_interface.cpp:1246-1306.  The oxide labels of
    line 1294 are NOT lower-cased, the line is. *)
Definition assim_line (sol : list solid) (d : ld) (line : str) : option ld :=
  let s := l_s d in
  let npc := length sol in
  let nc := length bulk_labels in
  if containsb (lit "assimilant: temperature") line then
    obind (num_at 24 line) (fun q => Some (set_s d (set_assim s q (assimMass s) (assimLiqM s))))
  else if containsb (lit "assimilant: mass") line then
    obind (num_at 17 line) (fun q => Some (set_s d (set_assim s (assimT s) q (assimLiqM s))))
  else if containsb (lit "assimilant: liquid mass") line then
    obind (num_at 24 line) (fun q =>
      Some (set_av (set_s d (set_assim s (assimT s) (assimMass s) q))
                   (upd (l_av d) (npc + nc) q) (l_found d) (l_liq d)))
  else if containsb (lit "units") line then Some d
  else if containsb (lit "increments") line then Some d
  else
    let ws := get_words [] line in
    let oxide :=
      match find_label bulk_labels 0 line with
      | Some (i, l) => obind (num_at (length l + 13) line) (fun q =>
                         Some (set_av d (upd (l_av d) (npc + i) q) (l_found d) true))
      | None => Some d
      end in
    match ws with
    | _ :: w1 :: _ =>
        match solid_index sol w1 0 with
        | Some (i, ph) =>
            obind (num_at (length w1 + 13) line) (fun q =>
              if ph then
                Some (set_av d (upd (l_av d) i (q * assimMass s / Q2Qc 100)%Qc)
                             (l_found d ++ [i]) (l_liq d))
              else Some (set_av d (upd (l_av d) i q) (l_found d) (l_liq d)))
        | None => oxide
        end
    | _ => oxide
    end.

(** body of the reading loop, src/melts_interface.cpp:1094-1306 *)
Definition load_line (sol : list solid) (d : ld) (raw : str) : option ld :=
  let line := lower raw in
  let s := l_s d in
  match classify raw with
  | KTitle => obind (substr 7 raw) (fun t => Some (set_s d (set_title s t)))
  | KComp =>
      match find_label (map lower bulk_labels) 0 line with
      | Some (i, l) => obind (num_at (length (lit "initial composition: " ++ l)) line)
                             (fun q => Some (set_comp d (upd (l_comp d) i q)))
      | None => Some d
      end
  | KIT => obind (num_at 21 line) (fun q => Some (set_tp d q (l_ip d) (l_ft d) (l_fp d)))
  | KIP => obind (num_at 18 line) (fun q => Some (set_tp d (l_it d) q (l_ft d) (l_fp d)))
  | KFT => obind (num_at 19 line) (fun q => Some (set_tp d (l_it d) (l_ip d) q (l_fp d)))
  | KFP => obind (num_at 16 line) (fun q => Some (set_tp d (l_it d) (l_ip d) (l_ft d) q))
  | KIncT => obind (num_at 23 line) (fun q => Some (set_s d (set_inc s q (incP s) (incH s) (incS s) (incV s))))
  | KIncP => obind (num_at 20 line) (fun q => Some (set_s d (set_inc s (incT s) q (incH s) (incS s) (incV s))))
  | KIncH => obind (num_at 20 line) (fun q => Some (set_s d (set_inc s (incT s) (incP s) q (incS s) (incV s))))
  | KIncS => obind (num_at 19 line) (fun q => Some (set_s d (set_inc s (incT s) (incP s) (incH s) q (incV s))))
  | KIncV => obind (num_at 18 line) (fun q => Some (set_s d (set_inc s (incT s) (incP s) (incH s) (incS s) q)))
  | KPath => obind (substr 14 line) (fun p =>
               let '(z, o) := parse_path p in
               Some (set_s d (set_fo2 s z (match o with Some x => x | None => fo2Delta s end))))
  | KOffset => obind (num_at 16 line) (fun q => Some (set_s d (set_fo2 s (fo2Path s) q)))
  | KSuppress => obind (substr 10 line) (fun l =>
               match phase_index sol l 0 with
               | Some j => Some (set_s d (set_incSol s (upd (incSol s) j false)))
               | None => Some d
               end)
  | KFrS => Some (set_fr d true (l_fl d) (l_ff d))
  | KFrL => Some (set_fr d (l_fs d) true (l_ff d))
  | KFrF => Some (set_fr d (l_fs d) (l_fl d) true)
  | KMulti => Some (set_s d (set_modes s true (isH s) (isS s) (isV s)))
  | KIsH => Some (set_s d (set_modes s (multi s) true (isS s) (isV s)))
  | KIsS => Some (set_s d (set_modes s (multi s) (isH s) true (isV s)))
  | KIsV => Some (set_s d (set_modes s (multi s) (isH s) (isS s) true))
  | KAssim => assim_line sol d line
  | KOther => Some d
  end.

Fixpoint load_lines (sol : list solid) (d : ld) (ls : list str) : option ld :=
  match ls with
  | [] => Some d
  | l :: ls' => obind (load_line sol d l) (fun d' => load_lines sol d' ls')
  end.

Definition nphases (sol : list solid) : nat := length (filter (fun e => snd e) sol).
Definition zero : Qc := Q2Qc 0.
Definition k1000 : Qc := Q2Qc 1000.

(** CreateSilminState, src/melts_interface.cpp:159-236: everything is reset
    except m_RunTitle and step_inc (members of MeltsInterface). *)
Definition create_state (sol : list solid) (s : settings) : settings :=
  mkS (title s) (repeat zero (length bulk_labels)) zero zero
      (incT s) (incP s) (incH s) (incS s) (incV s)
      0%Z zero (repeat true (nphases sol)) false false false false false false false
      k1000 zero zero.

(** AddAssimilant, src/melts_interface.cpp:460-475, effect on dspAssimMass/dspAssimLiqM *)
Definition add_assimilant (npc phase : nat) (mass : Qc) (s : settings) : settings :=
  let m1 := (assimMass s + mass)%Qc in
  if phase =? npc
  then set_assim s (assimT s) (m1 - assimLiqM s)%Qc mass
  else set_assim s (assimT s) m1 (assimLiqM s).

Definition qabs (a : Qc) : Qc := if qcompare_lt a 0 then (- a)%Qc else a.

(** sign of an increment, src/melts_interface.cpp:1309-1320 *)
Definition fix_sign (inc i0 f : Qc) : Qc :=
  if negb (is0 inc) && negb (is0 i0) && negb (is0 f)
  then if qcompare_lt f i0 then (- qabs inc)%Qc else qabs inc
  else inc.

Fixpoint zdiv (a b : list Qc) : list Qc :=
  match a, b with x :: a', y :: b' => (x / y)%Qc :: zdiv a' b' | _, _ => [] end.

(** end of LoadFromFile, src/melts_interface.cpp:1309-1354, with SetComposition
    (369-412), SetInitialTP (320-341), SetFractionate (271-287) *)
Definition finish (sol : list solid) (mw : list Qc) (d : ld) : settings * list Qc :=
  let s := l_s d in
  let npc := length sol in
  let nc := length bulk_labels in
  let s1 := mkS (title s) (zdiv (firstn nc (l_comp d)) mw) (l_it d + k27315)%Qc (l_ip d)
                (fix_sign (incT s) (l_it d) (l_ft d)) (fix_sign (incP s) (l_ip d) (l_fp d))
                (incH s) (incS s) (incV s) (fo2Path s) (fo2Delta s) (incSol s)
                (l_fs d) (l_fl d) (l_ff d) (multi s) (isH s) (isS s) (isV s)
                (assimT s) (assimMass s) (assimLiqM s) in
  let s2 := fold_left (fun s i =>
              let m := nth i (l_av d) zero in
              if qcompare_lt 0 m then add_assimilant npc i m s else s) (l_found d) s1 in
  let m := nth (npc + nc) (l_av d) zero in
  let s3 := if l_liq d && qcompare_lt 0 m then add_assimilant npc npc m s2 else s2 in
  (s3, l_av d).

(** LoadFromFile on the text of the file *)
Definition load (sol : list solid) (mw : list Qc) (s0 : settings) (text : str)
  : option (settings * list Qc) :=
  let d0 := mkL (create_state sol s0) (repeat zero 20) zero zero zero zero false false false
                (repeat zero (length sol + length bulk_labels + 1)) [] false in
  obind (load_lines sol d0 (getlines text)) (fun d => Some (finish sol mw d)).
