(** The solutions of the four solids tables, and the atoms of their end members. *)
From Coq Require Import Reals String List Bool Arith ZArith QArith Qcanon Qreals Lia Lra.
From Verif Require Import MassModel InitModel InitProps Tables ElmModel QryModel.
Import List ListNotations.
Local Open Scope string_scope.
Local Open Scope list_scope.

(** label and end-member formulas of the phase in row i of a solids table (rows that follow it, up to the next phase) *)
Fixpoint endMembers (l : list (string * bool * string)) : list string :=
  match l with (_, false, f) :: l' => f :: endMembers l' | _ => [] end.
Fixpoint solutionsOf (l : list (string * bool * string)) : list (string * list string) :=
  match l with
  | (s, true, _) :: l' => match endMembers l' with [] => solutionsOf l' | fs => (s, fs) :: solutionsOf l' end
  | _ :: l' => solutionsOf l'
  | [] => []
  end.
Definition solutions : list (string * list string) := [
  ("olivine", ["Mn2SiO4"; "Fe2SiO4"; "Co2SiO4"; "Ni2SiO4"; "CaMgSiO4"; "Mg2SiO4"]);
  ("garnet", ["Fe3Al2Si3O12"; "Ca3Al2Si3O12"; "Mg3Al2Si3O12"]);
  ("melilite", ["Ca2MgSi2O7"; "Ca2Al2SiO7"; "Ca2FeSi2O7"; "Na2Si3O7"]);
  ("orthopyroxene", ["CaMgSi2O6"; "Mg2Si2O6"; "CaFeSi2O6"; "CaTi0.5Mg0.5AlSiO6"; "CaTi0.5Mg0.5FeSiO6"; "CaFeAlSiO6"; "NaAlSi2O6"]);
  ("clinopyroxene", ["CaMgSi2O6"; "Mg2Si2O6"; "CaFeSi2O6"; "CaTi0.5Mg0.5AlSiO6"; "CaTi0.5Mg0.5FeSiO6"; "CaFeAlSiO6"; "NaAlSi2O6"]);
  ("cummingtonite", ["Mg7Si8O22(OH)2"; "Fe7Si8O22(OH)2"]);
  ("amphibole", ["Mg7Si8O22(OH)2"; "Fe7Si8O22(OH)2"; "Ca2Mg5Si8O22(OH)2"]);
  ("hornblende", ["NaCa2Mg4AlAl2Si6O22(OH)2"; "NaCa2Fe4AlAl2Si6O22(OH)2"; "NaCa2Mg4FeAl2Si6O22(OH)2"]);
  ("biotite", ["KFe3Si3AlO10(OH)2"; "KMg3Si3AlO10(OH)2"]);
  ("feldspar", ["NaAlSi3O8"; "CaAl2Si2O8"; "KAlSi3O8"]);
  ("nepheline", ["Na4Al4Si4O16"; "K4Al4Si4O16"; "Na3Al3Si5O16"; "CaNa2Al4Si4O16"]);
  ("kalsilite", ["Na4Al4Si4O16"; "K4Al4Si4O16"; "Na3Al3Si5O16"; "CaNa2Al4Si4O16"]);
  ("leucite", ["KAlSi2O6"; "NaAlSi2O5(OH)2"; "NaAlSi2O6"]);
  ("spinel", ["FeCr2O4"; "FeAl2O4"; "Fe3O4"; "MgAl2O4"; "Fe2TiO4"]);
  ("rhm-oxide", ["MgTiO3"; "Fe2O3"; "FeTiO3"; "MnTiO3"; "Al2O3"]);
  ("ortho-oxide", ["Fe2TiO5"; "FeTi2O5"; "MgTi2O5"]);
  ("fluid", ["H2O"; "CO2"]);
  ("alloy-solid", ["Fe"; "Ni"]);
  ("alloy-liquid", ["Fe"; "Ni"]);
  ("rhm-oxide", ["MgTiO3"; "Fe2O3"; "FeTiO3"; "MnTiO3"])].

Definition sameSol (a b : string * list string) : bool :=
  String.eqb (fst a) (fst b) && (fix go x y := match x, y with [], [] => true | u :: x, v :: y => String.eqb u v && go x y | _, _ => false end) (snd a) (snd b).
Lemma sameSol_eq a b : sameSol a b = true -> a = b.
Proof.
  destruct a as [a x], b as [b y]. unfold sameSol. cbn [fst snd]. intros K. apply andb_prop in K. destruct K as [K1 K2]. apply String.eqb_eq in K1. subst b.
  f_equal. revert y K2. induction x as [|u x IH]; intros [|v y] K2; try discriminate; auto.
  apply andb_prop in K2. destruct K2 as [K3 K4]. apply String.eqb_eq in K3. subst v. f_equal. now apply IH.
Qed.
Lemma solutions_all : forall m, In m modes -> forall s, In s (solutionsOf (mSol m)) -> In s solutions.
Proof.
  assert (K : forallb (fun m => forallb (fun s => existsb (sameSol s) solutions) (solutionsOf (mSol m))) modes = true) by (vm_compute; reflexivity).
  intros m Hm s Hs. rewrite forallb_forall in K. specialize (K m Hm). rewrite forallb_forall in K. specialize (K s Hs).
  apply existsb_exists in K. destruct K as (b & Hb & E). apply sameSol_eq in E. now subst b.
Qed.

(** atoms of the end members by atomic number *)
Definition atomTable : list (string * list (nat * Q)) := [
  ("Mn2SiO4", [(8%nat, 4#1); (14%nat, 1#1); (25%nat, 2#1)]);
  ("Fe2SiO4", [(8%nat, 4#1); (14%nat, 1#1); (26%nat, 2#1)]);
  ("Co2SiO4", [(8%nat, 4#1); (14%nat, 1#1); (27%nat, 2#1)]);
  ("Ni2SiO4", [(8%nat, 4#1); (14%nat, 1#1); (28%nat, 2#1)]);
  ("CaMgSiO4", [(8%nat, 4#1); (12%nat, 1#1); (14%nat, 1#1); (20%nat, 1#1)]);
  ("Mg2SiO4", [(8%nat, 4#1); (12%nat, 2#1); (14%nat, 1#1)]);
  ("Fe3Al2Si3O12", [(8%nat, 12#1); (13%nat, 2#1); (14%nat, 3#1); (26%nat, 3#1)]);
  ("Ca3Al2Si3O12", [(8%nat, 12#1); (13%nat, 2#1); (14%nat, 3#1); (20%nat, 3#1)]);
  ("Mg3Al2Si3O12", [(8%nat, 12#1); (12%nat, 3#1); (13%nat, 2#1); (14%nat, 3#1)]);
  ("Ca2MgSi2O7", [(8%nat, 7#1); (12%nat, 1#1); (14%nat, 2#1); (20%nat, 2#1)]);
  ("Ca2Al2SiO7", [(8%nat, 7#1); (13%nat, 2#1); (14%nat, 1#1); (20%nat, 2#1)]);
  ("Ca2FeSi2O7", [(8%nat, 7#1); (14%nat, 2#1); (20%nat, 2#1); (26%nat, 1#1)]);
  ("Na2Si3O7", [(8%nat, 7#1); (11%nat, 2#1); (14%nat, 3#1)]);
  ("CaMgSi2O6", [(8%nat, 6#1); (12%nat, 1#1); (14%nat, 2#1); (20%nat, 1#1)]);
  ("Mg2Si2O6", [(8%nat, 6#1); (12%nat, 2#1); (14%nat, 2#1)]);
  ("CaFeSi2O6", [(8%nat, 6#1); (14%nat, 2#1); (20%nat, 1#1); (26%nat, 1#1)]);
  ("CaTi0.5Mg0.5AlSiO6", [(8%nat, 6#1); (12%nat, 1#2); (13%nat, 1#1); (14%nat, 1#1); (20%nat, 1#1); (22%nat, 1#2)]);
  ("CaTi0.5Mg0.5FeSiO6", [(8%nat, 6#1); (12%nat, 1#2); (14%nat, 1#1); (20%nat, 1#1); (22%nat, 1#2); (26%nat, 1#1)]);
  ("CaFeAlSiO6", [(8%nat, 6#1); (13%nat, 1#1); (14%nat, 1#1); (20%nat, 1#1); (26%nat, 1#1)]);
  ("NaAlSi2O6", [(8%nat, 6#1); (11%nat, 1#1); (13%nat, 1#1); (14%nat, 2#1)]);
  ("Mg7Si8O22(OH)2", [(1%nat, 2#1); (8%nat, 24#1); (12%nat, 7#1); (14%nat, 8#1)]);
  ("Fe7Si8O22(OH)2", [(1%nat, 2#1); (8%nat, 24#1); (14%nat, 8#1); (26%nat, 7#1)]);
  ("Ca2Mg5Si8O22(OH)2", [(1%nat, 2#1); (8%nat, 24#1); (12%nat, 5#1); (14%nat, 8#1); (20%nat, 2#1)]);
  ("NaCa2Mg4AlAl2Si6O22(OH)2", [(1%nat, 2#1); (8%nat, 24#1); (11%nat, 1#1); (12%nat, 4#1); (13%nat, 3#1); (14%nat, 6#1); (20%nat, 2#1)]);
  ("NaCa2Fe4AlAl2Si6O22(OH)2", [(1%nat, 2#1); (8%nat, 24#1); (11%nat, 1#1); (13%nat, 3#1); (14%nat, 6#1); (20%nat, 2#1); (26%nat, 4#1)]);
  ("NaCa2Mg4FeAl2Si6O22(OH)2", [(1%nat, 2#1); (8%nat, 24#1); (11%nat, 1#1); (12%nat, 4#1); (13%nat, 2#1); (14%nat, 6#1); (20%nat, 2#1); (26%nat, 1#1)]);
  ("KFe3Si3AlO10(OH)2", [(1%nat, 2#1); (8%nat, 12#1); (13%nat, 1#1); (14%nat, 3#1); (19%nat, 1#1); (26%nat, 3#1)]);
  ("KMg3Si3AlO10(OH)2", [(1%nat, 2#1); (8%nat, 12#1); (12%nat, 3#1); (13%nat, 1#1); (14%nat, 3#1); (19%nat, 1#1)]);
  ("NaAlSi3O8", [(8%nat, 8#1); (11%nat, 1#1); (13%nat, 1#1); (14%nat, 3#1)]);
  ("CaAl2Si2O8", [(8%nat, 8#1); (13%nat, 2#1); (14%nat, 2#1); (20%nat, 1#1)]);
  ("KAlSi3O8", [(8%nat, 8#1); (13%nat, 1#1); (14%nat, 3#1); (19%nat, 1#1)]);
  ("Na4Al4Si4O16", [(8%nat, 16#1); (11%nat, 4#1); (13%nat, 4#1); (14%nat, 4#1)]);
  ("K4Al4Si4O16", [(8%nat, 16#1); (13%nat, 4#1); (14%nat, 4#1); (19%nat, 4#1)]);
  ("Na3Al3Si5O16", [(8%nat, 16#1); (11%nat, 3#1); (13%nat, 3#1); (14%nat, 5#1)]);
  ("CaNa2Al4Si4O16", [(8%nat, 16#1); (11%nat, 2#1); (13%nat, 4#1); (14%nat, 4#1); (20%nat, 1#1)]);
  ("KAlSi2O6", [(8%nat, 6#1); (13%nat, 1#1); (14%nat, 2#1); (19%nat, 1#1)]);
  ("NaAlSi2O5(OH)2", [(1%nat, 2#1); (8%nat, 7#1); (11%nat, 1#1); (13%nat, 1#1); (14%nat, 2#1)]);
  ("FeCr2O4", [(8%nat, 4#1); (24%nat, 2#1); (26%nat, 1#1)]);
  ("FeAl2O4", [(8%nat, 4#1); (13%nat, 2#1); (26%nat, 1#1)]);
  ("Fe3O4", [(8%nat, 4#1); (26%nat, 3#1)]);
  ("MgAl2O4", [(8%nat, 4#1); (12%nat, 1#1); (13%nat, 2#1)]);
  ("Fe2TiO4", [(8%nat, 4#1); (22%nat, 1#1); (26%nat, 2#1)]);
  ("MgTiO3", [(8%nat, 3#1); (12%nat, 1#1); (22%nat, 1#1)]);
  ("Fe2O3", [(8%nat, 3#1); (26%nat, 2#1)]);
  ("FeTiO3", [(8%nat, 3#1); (22%nat, 1#1); (26%nat, 1#1)]);
  ("MnTiO3", [(8%nat, 3#1); (22%nat, 1#1); (25%nat, 1#1)]);
  ("Al2O3", [(8%nat, 3#1); (13%nat, 2#1)]);
  ("Fe2TiO5", [(8%nat, 5#1); (22%nat, 1#1); (26%nat, 2#1)]);
  ("FeTi2O5", [(8%nat, 5#1); (22%nat, 2#1); (26%nat, 1#1)]);
  ("MgTi2O5", [(8%nat, 5#1); (12%nat, 1#1); (22%nat, 2#1)]);
  ("H2O", [(1%nat, 2#1); (8%nat, 1#1)]);
  ("CO2", [(6%nat, 1#1); (8%nat, 2#1)]);
  ("Fe", [(26%nat, 1#1)]);
  ("Ni", [(28%nat, 1#1)])]%Q.

Definition look (r : list (nat * Q)) (z : nat) : Q := match find (fun x => Nat.eqb (fst x) z) r with Some (_, n) => n | None => 0%Q end.
Definition atomRow (f : string) : list (nat * Q) := match find (fun x => String.eqb (fst x) f) atomTable with Some (_, r) => r | None => [] end.
Lemma atoms_table : forall f, In f (map fst atomTable) -> forall z, (z < NE)%nat -> atoms f z = Q2R (look (atomRow f) z).
Proof.
  assert (K : forallb (fun f => let r := elemRow f in let a := atomRow f in forallb (fun z => Qeq_bool (this (getV r z)) (look a z)) (seq 0 NE)) (map fst atomTable) = true)
    by (vm_compute; reflexivity).
  intros f Hf z Hz. rewrite forallb_forall in K. specialize (K f Hf). cbv zeta in K. rewrite forallb_forall in K.
  specialize (K z ltac:(apply in_seq; lia)). apply Qeq_bool_eq in K. unfold atoms, QR. now apply Qeq_eqR.
Qed.
