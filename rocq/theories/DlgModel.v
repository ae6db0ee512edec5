(** Model of the window "Set Assimilants", the part for solids.

    Sources: src/imgui_opengl_melts_version.cpp 896-900 (clear), 938-951 (the fields), 953-985 ("Add solid").

    Simplifications: doubles are real numbers; where a field becomes 0/0 and is set to 0 by the test of line 961, the model
    writes 0 when the total is 0 (the fields are kept nonnegative by 939, 944, 949, so that a total of 0 means that all are 0).
    The field vectors are functions of the index, [fieldOf] of m_AssimilationValues (npc+nc of them), [kept] of
    m_SetAssimilationValues (npc+nc+1), the latter being what SaveMeltsInputData is given (463). Typing is [Enter], of one field. *)
From Coq Require Import Reals Arith Bool List.
From Verif Require Import MassModel AsmModel.
Open Scope R_scope.

Record Win : Type := mkWin {
  fieldOf : nat -> R;           (* m_AssimilationValues *)
  kept : nat -> R;              (* m_SetAssimilationValues *)
  inside : Asm                  (* what the object has been told *)
}.
(** 896-900 *)
Definition cleared : Win := mkWin (fun _ => 0) (fun _ => 0) clearAll.
(** 938-951 *)
Definition enterField (k : nat) (v : R) (w : Win) : Win := mkWin (upd (fieldOf w) k v) (kept w) (inside w).

Section Adding.
Variable tab : Tab.
(** 954-958 *)
Definition fieldTotal (cur : nat) (w : Win) : R := loop (na tab cur) (fun j x => x + fieldOf w (cur+j+1)%nat) 0.
(** 959-962 *)
Definition normalised (cur : nat) (w : Win) : nat -> R :=
  let t := fieldTotal cur w in
  loop (na tab cur) (fun j f => upd f (cur+j+1) (if Req_EM_T t 0 then 0 else f (cur+j+1)%nat / t * 100)) (fieldOf w).
(** 953-985: "Add solid" with the phase in row cur selected *)
Definition addClick (cur : nat) (w : Win) : Win :=
  let t := fieldTotal cur w in
  let f := normalised cur w in
  let values := fun j => f (cur+j)%nat in
  (* 966-970 *)
  let w := mkWin f (kept w) (inside w) in
  let w := if Nat.eqb (na tab cur) 1 then
             if Req_EM_T (values O) 0 then w
             else mkWin f (upd (kept w) cur (kept w cur + f cur)) (addAssimilant tab cur (f cur) values (inside w))
           else w in
  (* 972-984 *)
  if Nat.ltb 1 (na tab cur) then
    if Req_EM_T (values O) 0 then w else if Req_EM_T t 0 then w else
    let k := loop (na tab cur) (fun i k => upd k (cur+1+i)
               ((f cur * f (cur+i+1)%nat + k cur * k (cur+1+i)%nat) / (f cur + k cur))) (kept w) in
    mkWin f (upd k cur (k cur + f cur)) (addAssimilant tab cur (f cur) values (inside w))
  else w.

Inductive Event : Type := Enter (k : nat) (v : R) | AddSolid (cur : nat) | Clear.
Definition react (w : Win) (e : Event) : Win :=
  match e with Enter k v => enterField k v w | AddSolid cur => addClick cur w | Clear => cleared end.
Definition session (evs : list Event) : Win := fold_left react evs cleared.
End Adding.
