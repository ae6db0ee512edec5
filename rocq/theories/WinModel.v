(** Model of three pieces of the main window: starting and stopping calculations, the calculation mode with its increments, and the title.

    Sources: src/imgui_opengl_melts_version.cpp 480-529 (loading a file), 571-587 (title), 594-608 (reset), 702-724 (saving T, P and
    composition), 788-853 (mode and increments), 1103-1173 (calculation); src/melts_interface.cpp 159-240 (CreateSilminState),
    288-312 (SetMode), 795-844 (Equilibrate). One event is what a user does in one frame, followed by the rest of that frame.

    Simplifications. Numbers are reals. Of the object only the three mode flags and step_inc are kept. A calculation is a worker
    that is running until it ends (when it ends is up to the scheduler); what it computes is in EquilModel.v. Assigning to a
    std::future that came from std::async waits for the calculation it referred to; the call of std::async on the right-hand side
    of line 1147 is evaluated, that is, its thread is started, before. *)
From Coq Require Import Reals ZArith Bool List Ascii String.
Import ListNotations.
Open Scope R_scope.

(** ** Calculations, 1103-1173 *)
Inductive Worker : Type := Running | Ended.
Record Gui : Type := mkGui {
  popup : bool;                 (* the modal window "Equilibration" is open *)
  launch : bool;                (* launch_equilibration_thread *)
  future : option Worker;       (* m_Future *)
  newer : option Worker         (* started by line 1147 while the window waits for [future] to end before assigning *)
}.
Definition idle : Gui := mkGui false false None None.
Inductive Deed : Type :=
| Press                         (* "Equilibrate", 1126-1134 *)
| Frame                         (* a frame while the modal window is open, 1143-1157 *)
| StopPress                     (* "Stop equilibration", 1158-1169 *)
| Replace                       (* "Reset state" 594-608, loading a file 480-529, saving T and P with results 702-714: the SilminState is destroyed *)
| OldEnds | NewEnds.            (* a calculation returns *)
(** what the window or the scheduler can do *)
Definition allowed (d : Deed) (g : Gui) : bool :=
  match d, newer g with
  | OldEnds, _ => match future g with Some Running => true | _ => false end
  | NewEnds, Some Running => true
  | NewEnds, _ => false
  | _, Some _ => false                                     (* the window is waiting *)
  | Press, None => negb (popup g)                          (* a modal window takes all input *)
  | Replace, None => negb (popup g)
  | Frame, None => popup g
  | StopPress, None => popup g && negb (launch g) && match future g with Some Running => true | _ => false end
  end.
(** 1149-1156 *)
Definition poll (g : Gui) : Gui :=
  match future g with Some Ended => mkGui false (launch g) (future g) (newer g) | _ => g end.
Definition perform (g : Gui) (d : Deed) : Gui :=
  if negb (allowed d g) then g else
  match d with
  | Press => mkGui true true (future g) None
  | Frame =>
      if launch g then
        match future g with
        | Some Running => mkGui true false (future g) (Some Running)
        | _ => poll (mkGui true false (Some Running) None)
        end
      else poll g
  | StopPress => mkGui false (launch g) (future g) None
  | Replace => g
  | OldEnds => match newer g with Some w => poll (mkGui (popup g) (launch g) (Some w) None) | None => mkGui (popup g) (launch g) (Some Ended) None end
  | NewEnds => mkGui (popup g) (launch g) (future g) (Some Ended)
  end.
Definition live (w : option Worker) : nat := match w with Some Running => 1 | _ => 0 end.
Definition running (g : Gui) : nat := live (future g) + live (newer g).

(** ** Mode and increments, 788-853 *)
Record Inc : Type := mkInc { incT : R; incP : R; incH : R; incS : R; incV : R }.
Definition noInc : Inc := mkInc 0 0 0 0 0.
Record Panel : Type := mkPanel {
  chosen : Z;                   (* _mode *)
  typed : Inc;                  (* inc_t, inc_p, inc_h, inc_s, inc_v *)
  opened : bool;                (* the tree node "Set calculation parameters" is unfolded *)
  flagH : bool; flagS : bool; flagV : bool;   (* isenthalpic, isentropic, isochoric *)
  stepInc : Inc                 (* _MI.step_inc *)
}.
Definition panel0 : Panel := mkPanel 0 noInc false false false false noInc.
(** 796: SetMode; 801-837 *)
Definition drawPanel (p : Panel) : Panel :=
  if negb (opened p) then p else
  let k := chosen p in let t := typed p in
  let h := Z.eqb k 1 in let s := Z.eqb k 2 in let v := Z.eqb k 3 in
  let i := stepInc p in
  let i := if Z.eqb k 0 || Z.eqb k 3 then mkInc (incT t) (incP i) 0 0 (incV i) else i in
  let i := if Z.leb 0 k && Z.ltb k 3 then mkInc (incT i) (incP t) (incH i) (incS i) 0 else i in
  let i := if Z.eqb k 1 then mkInc 0 (incP i) (incH t) 0 0 else i in
  let i := if Z.eqb k 2 then mkInc 0 (incP i) 0 (incS t) 0 else i in
  let i := if Z.eqb k 3 then mkInc (incT i) 0 0 0 (incV t) else i in
  mkPanel k t true h s v i.
(** MyUtil::Limit *)
Definition limit (b x : R) : R := Rmin b (Rmax (- b) x).
Inductive Field : Type := FT | FP | FH | FS | FV.
(** 801-831: which fields are drawn *)
Definition offered (k : Z) (f : Field) : bool :=
  match f with FT => Z.eqb k 0 || Z.eqb k 3 | FP => Z.leb 0 k && Z.ltb k 3 | FH => Z.eqb k 1 | FS => Z.eqb k 2 | FV => Z.eqb k 3 end.
Definition typeIn (f : Field) (x : R) (t : Inc) : Inc :=
  match f with
  | FT => mkInc (limit 2000 x) (incP t) (incH t) (incS t) (incV t)
  | FP => mkInc (incT t) (limit 10000 x) (incH t) (incS t) (incV t)
  | FH => mkInc (incT t) (incP t) (limit 2000000 x) (incS t) (incV t)
  | FS => mkInc (incT t) (incP t) (incH t) (limit 500 x) (incV t)
  | FV => mkInc (incT t) (incP t) (incH t) (incS t) (limit 50 x)
  end.
Inductive Touch : Type :=
| Fold                          (* the tree node is folded or unfolded *)
| Choose (k : Z)                (* 793, one of the four modes *)
| TypeIn (f : Field) (x : R)
| ClearFields                   (* 839-852 *)
| StartOver                        (* 595-607, or 703-714 with results present: _mode = 0, CreateSilminState *)
| FromFile (h s v : bool) (i : Inc).   (* 483-511: flags and increments found in the file *)
Definition touch (p : Panel) (e : Touch) : Panel :=
  match e with
  | Fold => drawPanel (mkPanel (chosen p) (typed p) (negb (opened p)) (flagH p) (flagS p) (flagV p) (stepInc p))
  | Choose k => if opened p && Z.leb 0 k && Z.leb k 3
                then drawPanel (mkPanel k (typed p) true (flagH p) (flagS p) (flagV p) (stepInc p)) else drawPanel p
  | TypeIn f x => if opened p && offered (chosen p) f
                  then drawPanel (mkPanel (chosen p) (typeIn f x (typed p)) true (flagH p) (flagS p) (flagV p) (stepInc p)) else drawPanel p
  | ClearFields => if opened p then let q := drawPanel p in mkPanel (chosen q) noInc true (flagH q) (flagS q) (flagV q) noInc else p
  | StartOver => drawPanel (mkPanel 0 (typed p) (opened p) false false false (stepInc p))
  | FromFile h s v i => drawPanel (mkPanel (if v then 3 else if s then 2 else if h then 1 else 0) i (opened p) h s v i)
  end.

(** ** The title, 571-587 and 595-596 *)
(** the bytes of title_buf up to the first zero, and m_RunTitle *)
Record Titles : Type := mkTitles { buf : list ascii; runTitle : list ascii }.
Definition cstr (s : list ascii) : list ascii :=
  (fix go s := match s with [] => [] | c :: r => if Ascii.eqb c Ascii.zero then [] else c :: go r end) s.
Definition illegal (c : ascii) : bool := existsb (Ascii.eqb c) (list_ascii_of_string "\/"":?*<>|"%string).
(** 34-42, 582-586 *)
Definition drawTitle (w : Titles) : Titles := if existsb illegal (buf w) then w else mkTitles (buf w) (buf w).
(** 574-579 after LoadFromFile has set the title (melts_interface.cpp 1097) *)
Definition loadTitle (s : list ascii) : Titles := drawTitle (mkTitles (cstr (firstn 31 s)) s).
(** 581: at most 31 bytes fit *)
Definition typeTitle (s : list ascii) (w : Titles) : Titles := drawTitle (mkTitles (firstn 31 (cstr s)) (runTitle w)).
(** 596, and the following frame: strncpy writes as many bytes as the buffer's string has *)
Definition resetTitle (w : Titles) : Titles :=
  drawTitle (mkTitles (firstn (List.length (buf w)) (list_ascii_of_string "Title"%string)) (runTitle w)).
