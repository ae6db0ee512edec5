(** What thread-specific storage should do: written on histories of calls,
    independent of the key table. *)
From Coq Require Import List Bool Arith.
From Verif Require Import TsdModel.
Import ListNotations.

(** histories are kept newest first *)

(** number of keys created so far *)
Fixpoint nkeys (h : list op) : nat :=
  match h with
  | [] => 0
  | Create _ :: h' => if nkeys h' <? NKEYS then S (nkeys h') else nkeys h'
  | _ :: h' => nkeys h'
  end.

(** the value thread [t] last gave key [k] and has not cleaned up; calls naming
    a key that did not exist at that time do not count *)
Fixpoint held (h : list op) (t k : nat) : ptr :=
  match h with
  | [] => None
  | Set_ t' k' v :: h' => if (t' =? t) && (k' =? k) && (k' <? nkeys h') then v else held h' t k
  | Cleanup t' :: h' => if t' =? t then None else held h' t k
  | _ :: h' => held h' t k
  end.

(** the destructor given when key [k] was created *)
Fixpoint destr_of (h : list op) (k : nat) : option nat :=
  match h with
  | [] => None
  | Create d :: h' => if (nkeys h' <? NKEYS) && (k =? nkeys h') then d else destr_of h' k
  | _ :: h' => destr_of h' k
  end.

(** the answer expected from the next call [o] after history [h] *)
Definition expected (h : list op) (o : op) : out :=
  match o with
  | Create _ => if nkeys h <? NKEYS then Key (nkeys h) else EAGAIN
  | Set_ _ k _ => if k <? nkeys h then OK else EINVAL
  | Get t k => Value (held h t k)
  | Cleanup t =>
      Destroyed (flat_map (fun k => match held h t k, destr_of h k with
                                    | Some p, Some f => [(f, p)]
                                    | _, _ => []
                                    end) (seq 0 (nkeys h)))
  end.

Fixpoint answers (h : list op) (os : list op) : list out :=
  match os with
  | [] => []
  | o :: os' => expected h o :: answers (o :: h) os'
  end.

(** thread numbers below 25, and gets only inside the key table *)
Definition safe (o : op) : Prop :=
  match o with
  | Create _ => True
  | Set_ t _ _ => t < NTHREADS
  | Get t k => t < NTHREADS /\ k < NKEYS
  | Cleanup t => t < NTHREADS
  end.
