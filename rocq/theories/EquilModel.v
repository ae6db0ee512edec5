(** Model of the calculation driver: MeltsInterface::Equilibrate and the stop
    request that another thread may make while it runs.

    Sources: src/melts_interface.cpp 314-318 (SetCalcSteps), 788-793
    (StopEquilibration), 795-847 (Equilibrate); include/melts_interface.hpp
    834-842 (the members are plain ints, neither atomic nor locked).

    The solver is a parameter: [call i s] is one call of silmin(i) on solver
    state [s] (everything silmin reads and writes, the silminState fields and
    its own static variables), giving its return value and the new state;
    [ready] reads silminState->ready_to_output, [status] reads
    meltsStatus.status, [setStatus] writes it, [incr] is line 839-840
    (SetIncrements, and AssimilateSetComposition when assimilating).

    Granularity: each program counter value below is one atomic step of the
    calculating thread; the decrement in the for header is a read followed by
    a write (the members are not atomic). Simplifications: lines 796-800
    (early return without a state; switching assimilation off) and the log
    messages are left out; the loop counters are unbounded integers except
    for the wrap of calc_index. The list [trace] is a history variable: it is
    written, never read. *)
From Coq Require Import List ZArith Bool Lia.
Import ListNotations.
Open Scope Z_scope.

Definition SILMIN_SUCCESS : Z := 5.        (* includes/status.h 33 *)
Definition NO_STATUS : Z := 9999.          (* melts_interface.cpp 42 *)
Definition INT_MAX : Z := 2147483647.

(** What the calculating thread did, in order of time. *)
Inductive Event : Type :=
| Called (index : Z) (ended isReady : bool) (stat : Z)   (* one silmin call and what it left *)
| Saved (index : Z)                                (* m_Steps.push_back(SilminData(p_SS, index)) *)
| Incremented.                                     (* T, P, H, S, V changed, assimilant added *)

Inductive PC : Type :=
| PInit                 (* 802-811, up to and including the for initialisation *)
| PFor                  (* 811 m_CalcStepsRemaining > 0 *)
| PZero                 (* 812 m_SilminEnd = 0 *)
| PWhile                (* 813 while (!m_SilminEnd) *)
| PCall                 (* 814 silmin(calc_index) *)
| PRet (ended : bool)   (* 814 m_SilminEnd = ..., 815-816 *)
| PSave                 (* 817-822 *)
| PRem                  (* 823-826 *)
| PStatus               (* 829-836 *)
| PInc                  (* 837 m_CalcStepsRemaining > 1 *)
| PIncDo                (* 838-840 *)
| PDec                  (* 811 -- : the read *)
| PDecW (v : Z)         (* 811 -- : the write *)
| PDone (result : bool).

Section Driver.
Variable St : Type.
Variable call : Z -> St -> bool * St.
Variable ready : St -> bool.
Variable status : St -> Z.
Variable setStatus : Z -> St -> St.
Variable incr : St -> St.

Record Mach : Type := mkMach {
  pc : PC;
  sol : St;
  calcSteps : Z;        (* m_CalcSteps *)
  remaining : Z;        (* m_CalcStepsRemaining *)
  silminEnd : bool;     (* m_SilminEnd *)
  lastIndex : Z;        (* m_LastIndex *)
  calcIndex : Z;        (* calc_index *)
  steps : list (St * Z);(* m_Steps, the newest first *)
  failure : bool;       (* m_Failure *)
  current : bool;       (* the global silminState is not null *)
  trace : list Event    (* newest first *)
}.

Definition atPc (p : PC) (m : Mach) : Mach :=
  mkMach p (sol m) (calcSteps m) (remaining m) (silminEnd m) (lastIndex m) (calcIndex m)
         (steps m) (failure m) (current m) (trace m).
Definition setSol (s : St) (m : Mach) : Mach :=
  mkMach (pc m) s (calcSteps m) (remaining m) (silminEnd m) (lastIndex m) (calcIndex m)
         (steps m) (failure m) (current m) (trace m).
Definition setRemaining (r : Z) (m : Mach) : Mach :=
  mkMach (pc m) (sol m) (calcSteps m) r (silminEnd m) (lastIndex m) (calcIndex m)
         (steps m) (failure m) (current m) (trace m).
Definition setEnd (b : bool) (m : Mach) : Mach :=
  mkMach (pc m) (sol m) (calcSteps m) (remaining m) b (lastIndex m) (calcIndex m)
         (steps m) (failure m) (current m) (trace m).
Definition setLast (l : Z) (m : Mach) : Mach :=
  mkMach (pc m) (sol m) (calcSteps m) (remaining m) (silminEnd m) l (calcIndex m)
         (steps m) (failure m) (current m) (trace m).
Definition setCalcIndex (i : Z) (m : Mach) : Mach :=
  mkMach (pc m) (sol m) (calcSteps m) (remaining m) (silminEnd m) (lastIndex m) i
         (steps m) (failure m) (current m) (trace m).
Definition pushStep (x : St * Z) (m : Mach) : Mach :=
  mkMach (pc m) (sol m) (calcSteps m) (remaining m) (silminEnd m) (lastIndex m) (calcIndex m)
         (x :: steps m) (failure m) (current m) (trace m).
Definition setFailure (b : bool) (m : Mach) : Mach :=
  mkMach (pc m) (sol m) (calcSteps m) (remaining m) (silminEnd m) (lastIndex m) (calcIndex m)
         (steps m) b (current m) (trace m).
Definition setCurrent (b : bool) (m : Mach) : Mach :=
  mkMach (pc m) (sol m) (calcSteps m) (remaining m) (silminEnd m) (lastIndex m) (calcIndex m)
         (steps m) (failure m) b (trace m).
Definition note (e : Event) (m : Mach) : Mach :=
  mkMach (pc m) (sol m) (calcSteps m) (remaining m) (silminEnd m) (lastIndex m) (calcIndex m)
         (steps m) (failure m) (current m) (e :: trace m).

(** melts_interface.cpp 314-318 *)
Definition SetCalcSteps (n : Z) (m : Mach) : Mach :=
  mkMach (pc m) (sol m) (n + 1) (remaining m) (silminEnd m) (lastIndex m) (calcIndex m)
         (steps m) (failure m) (current m) (trace m).

(** One step of Equilibrate, melts_interface.cpp 802-846. *)
Definition step (m : Mach) : Mach :=
  match pc m with
  | PInit =>                                                         (* 802, 806-811 *)
      let m := setSol (setStatus NO_STATUS (sol m)) m in
      let m := if lastIndex m <? 0 then setLast 0 m else m in
      let m := setCalcIndex (lastIndex m) m in
      let m := setCurrent true m in
      atPc PFor (setRemaining (calcSteps m) m)
  | PFor => if 0 <? remaining m then atPc PZero m
            else atPc (PDone true) (setCurrent false m)              (* 843-845 *)
  | PZero => atPc PWhile (setEnd false m)                            (* 812 *)
  | PWhile => if silminEnd m then atPc PStatus m else atPc PCall m   (* 813 *)
  | PCall =>                                                         (* 814 *)
      let '(e, s) := call (calcIndex m) (sol m) in
      atPc (PRet e) (note (Called (calcIndex m) e (ready s) (status s)) (setSol s m))
  | PRet e =>                                                        (* 814-816 *)
      let m := setEnd e m in
      let i := calcIndex m + 1 in
      atPc PSave (setCalcIndex (if i =? INT_MAX then 1 else i) m)
  | PSave =>                                                         (* 817-822 *)
      if ready (sol m) && ((lastIndex m =? 0) || negb (remaining m =? calcSteps m))
      then atPc PRem (setLast (lastIndex m + 1)
                        (note (Saved (lastIndex m)) (pushStep (sol m, lastIndex m) m)))
      else atPc PRem m
  | PRem => if remaining m =? 0 then atPc PStatus (setEnd true m)    (* 823-826 *)
            else atPc PWhile m
  | PStatus => if status (sol m) =? SILMIN_SUCCESS then atPc PInc m  (* 829-836 *)
               else atPc (PDone false) (setCurrent false (setFailure true m))
  | PInc => if 1 <? remaining m then atPc PIncDo m else atPc PDec m  (* 837 *)
  | PIncDo => atPc PDec (note Incremented (setSol (incr (sol m)) m)) (* 838-840 *)
  | PDec => atPc (PDecW (remaining m)) m                             (* 811 *)
  | PDecW v => atPc PFor (setRemaining (v - 1) m)
  | PDone _ => m
  end.

(** StopEquilibration 788-793, run by another thread: two writes in this
    order, then a log message that reads silminState->T. *)
Definition stop1 (m : Mach) : Mach := setEnd true m.
Definition stop2 (m : Mach) : Mach := setRemaining 0 m.
Definition stop3_crashes (m : Mach) : bool := negb (current m).

Fixpoint iterate (k : nat) (m : Mach) : Mach :=
  match k with O => m | S k => iterate k (step m) end.

End Driver.
