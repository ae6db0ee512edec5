(** Model of the liquidus calls of the object through which the graphical program uses MAGMA.

    Sources: src/melts_interface.cpp Liquidus 846-873, WetLiquidus 876-904 (the same statements around findWetLiquidus),
    CreateSilminState 224 (the temperature remembered is forgotten), SetComposition 369-417 (see IfaceModel.v);
    include/melts_interface.hpp 780-782 (GetLiquidusT), 864.

    Simplifications: those of IfaceModel.v. The search itself (liquidus.c, modelled in LiquidusModel.v and WetModel.v) is an
    argument: what it makes of the object's state with the global pointer set, whether it reports LIQUIDUS_SUCCESS, or None
    when it does not return. NaN, the value of a liquidus temperature not known, is None. dspTstart and dspTstop, both
    set to the temperature of the state, and the messages are left out. *)
From Coq Require Import Reals Arith Bool ZArith List.
From Verif Require Import MassModel RedoxModel SupplyModel IfaceModel IfaceProps.
Import ListNotations.
Open Scope R_scope.

Record LObj : Type := mkL { obj : Obj; liqT : option R (* m_LiquidusT, celsius *) }.
(** temperature in kelvin, the matter *)
Record Found : Type := mkFound { success : bool; foundT : R; foundNode : Node }.

(** silminState = p_SS, or NULL *)
Definition withEngine (b : bool) (ob : Obj) : Obj :=
  mkObj (node ob) (entered ob) (total ob) (compSet ob) (tpSet ob) (normSave ob) (temp ob) (press ob)
        (fo2Path ob) (fo2Delta ob) (isH ob) (isS ob) (isV ob) (version ob) (calcMode ob) (tables ob) b.
(** the state as the search leaves it *)
Definition withFound (t : R) (n : Node) (ob : Obj) : Obj :=
  mkObj n (entered ob) (total ob) (compSet ob) (tpSet ob) (normSave ob) t (press ob)
        (fo2Path ob) (fo2Delta ob) (isH ob) (isS ob) (isV ob) (version ob) (calcMode ob) (tables ob) (engineOn ob).

Section Call.
Variable tab : Tab.
Variable search : Obj -> option Found.
(** 846-873, 876-904: the value returned, and the object *)
Definition callLiquidus (l : LObj) : option (bool * LObj) :=
  let ob := withEngine true (obj l) in                                            (* 848 *)
  match search ob with
  | None => None
  | Some f =>
      let ob := withFound (foundT f) (foundNode f) ob in
      let lt := if success f then Some (temp ob - 273.15) else liqT l in          (* 852-857 *)
      let ob := withEngine false ob in                                            (* 859 *)
      let c := fun i => if Nat.ltb i (nc tab) then omw tab i * bulk (matter (node ob)) i else entered ob i in  (* 866-868 *)
      Some (true, mkL (setComposition tab c ob) lt)                               (* 869-873 *)
  end.

(** any other call: only InitializeMelts touches the temperature remembered (224) *)
Variable coeff : nat -> R.
Variables iF2 iF3 : nat.
Variable capped : bool.
Inductive Call : Type := Plain (c : Cmd) | LiquidusCall.
Definition call (k : Call) (l : LObj) : option LObj :=
  match k with
  | Plain c =>
      match issue tab coeff iF2 iF3 capped c (obj l) with
      | Accepted ob | Refused ob => Some (mkL ob match c with CInit _ => None | _ => liqT l end)
      | NotNumbers => None
      end
  | LiquidusCall => match callLiquidus l with Some (_, l') => Some l' | None => None end
  end.
Fixpoint calls (ks : list Call) (l : LObj) : option LObj :=
  match ks with [] => Some l | k :: ks => match call k l with Some l' => calls ks l' | None => None end end.
End Call.
