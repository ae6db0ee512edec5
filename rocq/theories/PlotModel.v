(** Model of what the graphical program draws: src/imgui_opengl_melts_version.cpp 363-375 (ClearPlotData), 1125-1172 (the
    Equilibrate button, its popup and the Stop button), 1443-1716 (the Plot tab); the list of phase names is
    src/melts_interface.cpp 907-914, called from InitializeMelts 109-151.

    A step of the data carries its temperature, the solids and the fractionated solids (phase index and mass, one entry per
    coexisting phase: include/melts_interface.hpp 205-281, 340-430) and the composition of its first liquid, if any.

    Simplifications: the casts to float are left out (real numbers); of the x axes only the temperature is kept (the other
    four are filled by the same loop), the curves of fractionated liquid are left out (1601-1606, as the liquid's).
    A C++ exception from at(), or an index outside a vector in operator[], is the outcome [None]. *)
From Coq Require Import Reals List Arith Bool.
Import ListNotations.
Open Scope R_scope.

Record Step : Type := mkStep { stT : R; stSol : list (nat * R); stFrac : list (nat * R); stLiq : option (nat -> R) }.

(** 1571-1574: the place of a phase in the plot data; phase_indices.at throws for anything else *)
Definition place (types : list bool) (i : nat) : option nat :=
  if nth i types false then Some (length (filter (fun b => b) (firstn i types))) else None.

(** v[i] += x *)
Fixpoint bump (l : list R) (i : nat) (x : R) : option (list R) :=
  match l, i with
  | [], _ => None
  | a :: l', O => Some ((a + x) :: l')
  | a :: l', S i' => match bump l' i' x with Some r => Some (a :: r) | None => None end
  end.
(** v.at(k)[i] += x *)
Fixpoint bumpAt (ls : list (list R)) (k i : nat) (x : R) : option (list (list R)) :=
  match ls, k with
  | [], _ => None
  | l :: ls', O => match bump l i x with Some r => Some (r :: ls') | None => None end
  | l :: ls', S k' => match bumpAt ls' k' i x with Some r => Some (l :: r) | None => None end
  end.
(** v.at(k) = true *)
Fixpoint mark (l : list bool) (k : nat) : option (list bool) :=
  match l, k with
  | [], _ => None
  | _ :: l', O => Some (true :: l')
  | b :: l', S k' => match mark l' k' with Some r => Some (b :: r) | None => None end
  end.
(** the first n vectors each gain d zeros (1563-1568) *)
Fixpoint grow (n d : nat) (ls : list (list R)) : option (list (list R)) :=
  match n, ls with
  | O, _ => Some ls
  | S _, [] => None
  | S n', l :: ls' => match grow n' d ls' with Some r => Some ((l ++ repeat 0 d) :: r) | None => None end
  end.

(** m_PlotPhaseMasses and m_PlotPhaseExists, or their fractionated twins *)
Record Family : Type := mkFam { masses : list (list R); seen : list bool }.

(** 1609-1616: one step's phases *)
Fixpoint addPhases (types : list bool) (i : nat) (ps : list (nat * R)) (f : Family) : option Family :=
  match ps with
  | [] => Some f
  | (p, m) :: ps' =>
      match place types p with
      | None => None
      | Some k => match bumpAt (masses f) k i m with
                  | None => None
                  | Some ms => match mark (seen f) k with None => None | Some se => addPhases types i ps' (mkFam ms se) end
                  end
      end
  end.
(** 1576-1617, from step i on *)
Fixpoint addSteps (types : list bool) (get : Step -> list (nat * R)) (i : nat) (ss : list Step) (f : Family) : option Family :=
  match ss with
  | [] => Some f
  | s :: ss' => match addPhases types i (get s) f with None => None | Some g => addSteps types get (S i) ss' g end
  end.
(** 1547-1569 with 1576-1617 for one family; [nVec] is GetPhasesVec().size(), [prev] the length of m_PlotTemperatures *)
Definition refreshFam (types : list bool) (nVec : nat) (get : Step -> list (nat * R)) (prev : nat) (ss : list Step) (f : Family) : option Family :=
  let n := length ss in
  match (if Nat.eqb prev 0 then Some (mkFam (masses f ++ repeat (repeat 0 n) nVec) (seen f ++ repeat false nVec))
         else match grow nVec (n - prev) (masses f) with Some ms => Some (mkFam ms (seen f)) | None => None end) with
  | None => None
  | Some f => addSteps types get prev (skipn prev ss) f
  end.

(** 1593-1606: the curve of oxide o gains one point per step *)
Definition liquidPoint (o : nat) (s : Step) : R := match stLiq s with Some c => c o | None => 0 end.
Definition refreshLiq (prev : nat) (ss : list Step) (ls : list (list R)) : option (list (list R)) :=
  let ls := if Nat.eqb prev 0 then ls ++ repeat [] 19 else ls in
  if Nat.ltb (length ls) 19 then (if Nat.eqb (length (skipn prev ss)) 0 then Some ls else None)
  else Some (map (fun o => nth o ls [] ++ (if Nat.ltb o 19 then map (liquidPoint o) (skipn prev ss) else [])) (seq 0 (length ls))).

Record Plot : Type := mkPlot { temps : list R; solids : Family; fracs : Family; liquids : list (list R) }.
(** 363-375 *)
Definition cleared : Plot := mkPlot [] (mkFam [] []) (mkFam [] []) [].
(** 1546-1618 *)
Definition refresh (types : list bool) (nVec : nat) (ss : list Step) (p : Plot) : option Plot :=
  let prev := length (temps p) in
  match refreshFam types nVec stSol prev ss (solids p), refreshFam types nVec stFrac prev ss (fracs p), refreshLiq prev ss (liquids p) with
  | Some a, Some b, Some c => Some (mkPlot (temps p ++ map stT (skipn prev ss)) a b c)
  | _, _, _ => None
  end.

(** A session of the program, for one initialised version.  [data] is MeltsInterface::m_Steps, [running] says that the
    calculating thread is at work, [popup] that the modal window is open, [loaded] is m_PlotDataLoaded. *)
Record Session : Type := mkSes { data : list Step; running : bool; popup : bool; loaded : bool; plot : Plot }.
Inductive Event : Type :=
| Start                 (* the Equilibrate button: 1126-1148; not offered while the window is open *)
| Produce (s : Step)    (* the thread saves a step: melts_interface.cpp 819 *)
| Finish                (* the thread returns *)
| Ready                 (* a frame of the window finds the future ready: 1153-1156 *)
| Stop                  (* the Stop button: 1162-1168 *)
| Reset.                (* CreateSilminState and ClearPlotData: 480, 606-607, 716-717 *)
(** None: not possible in this state.  A reset while the thread still works on the state is not modelled *)
Definition event (e : Event) (s : Session) : option Session :=
  match e with
  | Start => if popup s || running s then None else Some (mkSes (data s) true true (loaded s) (plot s))
  | Produce x => if running s then Some (mkSes (data s ++ [x]) true (popup s) (loaded s) (plot s)) else None
  | Finish => if running s then Some (mkSes (data s) false (popup s) (loaded s) (plot s)) else None
  | Ready => if popup s && negb (running s) then Some (mkSes (data s) false false true (plot s)) else None
  | Stop => if popup s && running s
            then Some (mkSes (data s) true false (loaded s || negb (Nat.eqb (length (data s)) 0)) (plot s)) else None
  | Reset => if popup s || running s then None else Some (mkSes [] false false (loaded s) cleared)
  end.
(** a frame with the Plot tab open (it cannot be reached while the window is open): 1445-1618 and 1628 *)
Inductive Frame : Type := NoFrame | Nothing | Broken | Drawn (s : Session).
Definition frame (types : list bool) (nVec : nat) (s : Session) : Frame :=
  if popup s then NoFrame
  else if Nat.eqb (length (data s)) 0 then Nothing
  else match (if loaded s then refresh types nVec (data s) (plot s) else Some (plot s)) with
       | None => Broken
       | Some p => if Nat.eqb (length (temps p)) 0 then Broken      (* 1628: m_PlotTemperatures.at(size()-1) *)
                   else Drawn (mkSes (data s) (running s) (popup s) false p)
       end.
(** 1658, 1698, 1713: ImGui::Plot reads plot_items = GetData().size() numbers from each vector it is given *)
Definition readsWithin (s : Session) : Prop :=
  (length (data s) <= length (temps (plot s)))%nat /\
  (forall k, nth k (seen (solids (plot s))) false = true -> (length (data s) <= length (nth k (masses (solids (plot s))) []))%nat) /\
  (forall k, nth k (seen (fracs (plot s))) false = true -> (length (data s) <= length (nth k (masses (fracs (plot s))) []))%nat) /\
  (forall o, (o < 19)%nat -> (length (data s) <= length (nth o (liquids (plot s)) []))%nat).

(** a history: events and frames of the Plot tab (which change the session too) *)
Inductive Act : Type := Do (e : Event) | Look.
Fixpoint history (types : list bool) (nVec : nat) (as_ : list Act) (s : Session) : option Session :=
  match as_ with
  | [] => Some s
  | Do e :: r => match event e s with Some s' => history types nVec r s' | None => None end
  | Look :: r => match frame types nVec s with
                 | Drawn s' => history types nVec r s'
                 | Nothing => history types nVec r s
                 | NoFrame => None
                 | Broken => None
                 end
  end.
Definition opened : Session := mkSes [] false false false cleared.
Definition stopless (as_ : list Act) : Prop := Forall (fun a => a <> Do Stop) as_.

(** GetPhaseNames, melts_interface.cpp 907-914, into m_Phases (cleared first, 146) and m_PhasesVec (not cleared) *)
Definition phaseRows (types : list bool) : list nat := filter (fun i => nth i types false) (seq 0 (length types)).
Definition getPhaseNames {A} (label : nat -> A) (types : list bool) (vec : list A) : list A := vec ++ map label (phaseRows types).
