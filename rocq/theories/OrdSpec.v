(** What the theorems on solution phases with ordering parameters assume,
    independently of their proofs: a region of conditions in which order()
    has found a stationary state inside the bounds. *)
From Coq Require Import Reals NArith List Arith.
From Coquelicot Require Import Coquelicot.
From Verif Require Import Sym SolnModel SolnSpec LaSpec OrdLimits OrdModel.
Import List ListNotations.
Local Open Scope R_scope.

(** [sv t p r] is the ordering state found at temperature t, pressure p and
    composition r, [slv t p r] the linear solver used there, [D] the region:
    open along each coordinate line. *)
Record ordered (ph : ordPhase) (sv : R -> R -> (nat -> R) -> nat -> R) (slv : R -> R -> (nat -> R) -> vec -> vec)
    (D : R -> R -> (nat -> R) -> Prop) : Prop := mkOrdered {
  ord_openT : forall t p r, D t p r -> locally t (fun y => D y p r);
  ord_openP : forall t p r, D t p r -> locally p (fun y => D t y r);
  ord_openX : forall t p r i, D t p r -> (i < o_nr ph)%nat -> locally (r i) (fun y => D t p (upd r i y));
  (** the state that is found varies continuously *)
  ord_contT : forall t p r k, D t p r -> (k < o_ns ph)%nat -> filterlim (fun y => sv y p r k) (locally t) (locally (sv t p r k));
  ord_contP : forall t p r k, D t p r -> (k < o_ns ph)%nat -> filterlim (fun y => sv t y r k) (locally p) (locally (sv t p r k));
  ord_contX : forall t p r i k, D t p r -> (i < o_nr ph)%nat -> (k < o_ns ph)%nat ->
     filterlim (fun y => sv t p (upd r i y) k) (locally (r i)) (locally (sv t p r k));
  (** t > 0 and the site fractions are clear of the clamps *)
  ord_inside : forall t p r, D t p r -> inside (o_sites ph) [0%N] (opt t p r (sv t p r));
  (** DGDSk = 0, and the Hessian d2gds2 is nonsingular *)
  ord_stationary : forall t p r k, D t p r -> (k < o_ns ph)%nat -> ev ph sv t p r (nth1 (o_s1 ph) k) = 0;
  ord_regular : forall t p r, D t p r -> nonsingular (o_ns ph) (fun k l => ev ph sv t p r (nth2 (o_ss ph) k l));
  ord_library : forall t p r, D t p r -> library (o_method ph) (o_ns ph) (negHess ph sv t p r) (slv t p r) }.

(** what the caller relies on for the end-member properties: g, h, s, cp, dcp/dt, v, ... of each *)
Record endsOK (ends : nat -> R -> R -> nat -> R) (D : R -> R -> (nat -> R) -> Prop) : Prop := mkEnds {
  en_h : forall t p r i, D t p r -> ends 1%nat t p i = ends 0%nat t p i + t * ends 2%nat t p i;
  en_s : forall t p r i, D t p r -> is_derive (fun y => ends 0%nat y p i) t (- ends 2%nat t p i);
  en_c : forall t p r i, D t p r -> is_derive (fun y => ends 2%nat y p i) t (ends 3%nat t p i / t);
  en_ct : forall t p r i, D t p r -> is_derive (fun y => ends 3%nat y p i) t (ends 4%nat t p i);
  en_v : forall t p r i, D t p r -> is_derive (fun y => ends 0%nat t y i) p (ends 5%nat t p i);
  en_vt : forall t p r i, D t p r -> is_derive (fun y => ends 5%nat y p i) t (ends 6%nat t p i);
  en_vp : forall t p r i, D t p r -> is_derive (fun y => ends 5%nat t y i) p (ends 7%nat t p i);
  en_vtt : forall t p r i, D t p r -> is_derive (fun y => ends 6%nat y p i) t (ends 8%nat t p i);
  en_vtp : forall t p r i, D t p r -> is_derive (fun y => ends 6%nat t y i) p (ends 9%nat t p i);
  en_vpp : forall t p r i, D t p r -> is_derive (fun y => ends 7%nat t y i) p (ends 10%nat t p i) }.
