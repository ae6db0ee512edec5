(** formulaToMwStoich, sources/melts_support.c:746-833, character by character.
    Simplifications: amounts and weights are exact rationals; C-locale
    character classes, bytes above 127 count as illegal; [atof] is a parameter
    (any function from text to number).  Writing a fourth byte into the 3-byte
    buffer [sym] is the outcome [UB].  The in-place deletion of the group
    multiplier from [temp] (lines 798-801) is deletion from the list of
    characters still to be read. *)
From Coq Require Import Ascii String List Bool Arith ZArith QArith Qcanon.
From Verif Require Import Str Num.
Import ListNotations.
Local Open Scope nat_scope.
Local Open Scope list_scope.

Definition code (c : ascii) : nat := nat_of_ascii c.
Definition isupper (c : ascii) : bool := (65 <=? code c) && (code c <=? 90).
Definition islower (c : ascii) : bool := (97 <=? code c) && (code c <=? 122).
Definition isalpha (c : ascii) : bool := isupper c || islower c.
Definition isspace (c : ascii) : bool := (code c =? 32) || ((9 <=? code c) && (code c <=? 13)).
Definition is_open (c : ascii) : bool := Ascii.eqb c "("%char.
Definition is_close (c : ascii) : bool := Ascii.eqb c ")"%char.

Section Parser.
  Variable elems : list (str * Qc).   (* elements[j], j = 1.. : symbol, weight; index j = position + 1 *)
  Variable atof : str -> Qc.          (* C library *)

  (** the search loops of lines 763-765 and 813-815: index >= 1 *)
  Fixpoint lookup (l : list (str * Qc)) (j : nat) (s : str) : option nat :=
    match l with
    | [] => None
    | (x, _) :: l' => if streqb s x then Some j else lookup l' (S j) s
    end.
  Definition weight (j : nat) : Qc := match nth_error elems (j - 1) with Some (_, w) => w | None => Q2Qc 0 end.

  (** variables of the loop: j = 0 means no pending amount *)
  Record st := mkSt {
    sym : str; num : str; j : nat; mult : Qc;
    mw : Qc; stoich : nat -> Qc
  }.
  Inductive res := Fail (s : nat -> Qc)            (* return 0.0, stoich as left behind *)
                 | UB
                 | Done (mw : Qc) (s : nat -> Qc)  (* return mw *)
                 | OutOfFuel.

  Definition add_at (f : nat -> Qc) (k : nat) (q : Qc) : nat -> Qc :=
    fun i => if i =? k then (f i + q)%Qc else f i.

  (** lines 761-768: complete the pending symbol unless the character continues it *)
  Definition complete (s : st) (c : ascii) : option st :=
    if negb (islower c) && negb (match sym s with [] => true | _ => false end) then
      match lookup elems 1 (sym s) with
      | Some k => Some (mkSt [] (num s) k (mult s) (mw s) (stoich s))
      | None => None
      end
    else Some s.

  (** lines 769-779: account for the pending element *)
  Definition flush (s : st) : st :=
    if 0 <? j s then
      let a := match num s with [] => mult s | n => (atof n * mult s)%Qc end in
      mkSt (sym s) [] 0 (mult s) (mw s + a * weight (j s))%Qc (add_at (stoich s) (j s) a)
    else s.

  (** lines 783-786: text up to the first ')' and after it *)
  Fixpoint split_close (l : str) : option (str * str) :=
    match l with
    | [] => None
    | c :: l' => if is_close c then Some ([], l')
                 else match split_close l' with Some (a, b) => Some (c :: a, b) | None => None end
    end.
  (** lines 787-788: the multiplier text *)
  Fixpoint span_mult (l : str) : str * str :=
    match l with
    | [] => ([], [])
    | c :: l' => if isupper c || is_open c then ([], l)
                 else let '(a, b) := span_mult l' in (c :: a, b)
    end.

  (** one character; [rest] is what follows it (without the final blank).
      Result: new variables and the new rest. *)
  Inductive stepres := SFail (s : nat -> Qc) | SUB | SGo (s : st) (rest : str).
  Definition step1 (s : st) (c : ascii) (rest : str) : stepres :=
    if isalpha c || isspace c || is_open c || is_close c then
      match complete s c with
      | None => SFail (stoich s)
      | Some s1 =>
          let s2 := flush s1 in
          if is_open c then
            match split_close rest with
            | None => SFail (stoich s2)
            | Some (a, b) =>
                let '(m, b') := span_mult b in
                match m with
                | [] => SGo s2 rest
                | _ => SGo (mkSt (sym s2) [] (j s2) (atof m) (mw s2) (stoich s2)) (a ++ ")"%char :: b')
                end
            end
          else if is_close c then
            SGo (mkSt (sym s2) (num s2) (j s2) (Q2Qc 1) (mw s2) (stoich s2)) rest
          else
            if length (sym s2) <? 2
            then SGo (mkSt (sym s2 ++ [c]) (num s2) (j s2) (mult s2) (mw s2) (stoich s2)) rest
            else SUB
      end
    else if numch c then
      match num s with
      | [] => match lookup elems 1 (sym s) with
              | None => SFail (stoich s)
              | Some k => SGo (mkSt [] [c] k (mult s) (mw s) (stoich s)) rest
              end
      | n => SGo (mkSt (sym s) (n ++ [c]) (j s) (mult s) (mw s) (stoich s)) rest
      end
    else SFail (stoich s).

  (** the for loop of lines 758-826; the last character read is the blank
      appended at line 756 *)
  Fixpoint loop (fuel : nat) (s : st) (rest : str) : res :=
    match fuel with
    | O => OutOfFuel
    | S f =>
        match rest with
        | [] => match step1 s " "%char [] with
                | SFail g => Fail g | SUB => UB
                | SGo s' _ => Done (mw s') (stoich s')
                end
        | c :: rest' => match step1 s c rest' with
                        | SFail g => Fail g | SUB => UB
                        | SGo s' r => loop f s' r
                        end
        end
    end.

  Definition start (g : nat -> Qc) : st := mkSt [] [] 0 (Q2Qc 1) (Q2Qc 0) g.
  (** lines 746-757 *)
  Definition formulaToMwStoich (formula : str) (g : nat -> Qc) : res :=
    match formula with
    | [] => Fail g
    | _ => loop (S (length formula)) (start g) formula
    end.
End Parser.
