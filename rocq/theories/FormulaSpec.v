(** Chemical formulas as syntax trees, their text and their meaning. *)
From Coq Require Import Ascii String List Bool Arith ZArith QArith Qcanon.
From Verif Require Import Str Num.
Import ListNotations.
Local Open Scope list_scope.

(** an element symbol with an optional amount written after it *)
Notation elem := (str * option str)%type.
(** one level of groups, with an optional multiplier *)
Inductive item := El (e : elem) | Grp (es : list elem) (m : option str).

Definition text_of (o : option str) : str := match o with Some t => t | None => [] end.
Definition render_el (e : elem) : str := fst e ++ text_of (snd e).
Definition render_els (es : list elem) : str := flat_map render_el es.
Definition render_item (i : item) : str :=
  match i with
  | El e => render_el e
  | Grp es m => "("%char :: render_els es ++ ")"%char :: text_of m
  end.
Definition render (l : list item) : str := flat_map render_item l.

Section Meaning.
  Variable atof : str -> Qc.   (* value of a decimal text *)
  Definition value (o : option str) : Qc := match o with Some t => atof t | None => Q2Qc 1 end.
  (** total amount of symbol [s] *)
  Definition amount_el (s : str) (e : elem) : Qc := if streqb (fst e) s then value (snd e) else Q2Qc 0.
  Definition amount_els (s : str) (es : list elem) : Qc :=
    fold_right (fun e q => (amount_el s e + q)%Qc) (Q2Qc 0) es.
  Definition amount_item (s : str) (i : item) : Qc :=
    match i with
    | El e => amount_el s e
    | Grp es m => (amount_els s es * value m)%Qc
    end.
  Definition amount (s : str) (l : list item) : Qc :=
    fold_right (fun i q => (amount_item s i + q)%Qc) (Q2Qc 0) l.
End Meaning.

(** well-formed: known symbols of the shape "X" or "Xy", non-empty decimal texts *)
Definition is_up (c : ascii) : bool := (65 <=? nat_of_ascii c) && (nat_of_ascii c <=? 90).
Definition is_low (c : ascii) : bool := (97 <=? nat_of_ascii c) && (nat_of_ascii c <=? 122).
Definition sym_shape (s : str) : bool :=
  match s with [a] => is_up a | [a; b] => is_up a && is_low b | _ => false end.
Definition numeral (o : option str) : bool :=
  match o with None => true | Some [] => false | Some t => forallb numch t end.
Definition wf_el (elems : list (str * Qc)) (e : elem) : Prop :=
  In (fst e) (map fst elems) /\ sym_shape (fst e) = true /\ numeral (snd e) = true.
Definition wf_item elems (i : item) : Prop :=
  match i with
  | El e => wf_el elems e
  | Grp es m => Forall (wf_el elems) es /\ numeral m = true
  end.
