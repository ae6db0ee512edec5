(** Thread-specific data emulation, sources/mthread.c:47-170, and the lazily
    allocated per-thread objects of sources/melts_threads.c:38-137.
    Simplifications: [long count] is an unbounded integer; calls are atomic
    (the emulation is single threaded, [threadID] names the logical thread);
    a destructor does not itself call these functions; calloc never fails.
    Reading or writing outside an array is the outcome [UB]. *)
From Coq Require Import List Bool Arith ZArith.
Import ListNotations.

Definition NKEYS : nat := 512.       (* MTHREAD_DATAKEYS_MAX, mthread.c:47 *)
Definition NTHREADS : nat := 25.     (* MAX_CONNECTION_THREADS, mthread.h:60 *)

(** a pointer: None is NULL *)
Notation ptr := (option nat).

(** struct MTHREAD_KEY, mthread.c:55-59; destructor: an identifier, None = NULL *)
Record entry := mkE { count : Z; destructor : option nat; data : nat -> ptr }.

(** key_table, mthread.c:61, indices < NKEYS; static storage is zero *)
Definition table := nat -> entry.
Definition zero_entry : entry := mkE 0 None (fun _ => None).
Definition init : table := fun _ => zero_entry.

Definition updt (t : table) (k : nat) (e : entry) : table :=
  fun j => if j =? k then e else t j.
Definition updf {A} (f : nat -> A) (k : nat) (v : A) : nat -> A :=
  fun j => if j =? k then v else f j.

Inductive op :=
  | Create (d : option nat)                 (* MTHREAD_KEY_CREATE(&key, d) *)
  | Set_ (tid key : nat) (v : ptr)          (* MTHREAD_SETSPECIFIC *)
  | Get (tid key : nat)                     (* MTHREAD_GETSPECIFIC *)
  | Cleanup (tid : nat).                    (* MTHREAD_CLEANUPSPECIFIC *)

Inductive out :=
  | Key (k : nat) | EAGAIN                  (* Create *)
  | OK | EINVAL                             (* Set_ *)
  | Value (v : ptr)                         (* Get *)
  | Destroyed (calls : list (nat * nat))    (* Cleanup: (destructor, argument) in call order *)
  | UB.

(** MTHREAD_KEY_CREATE, mthread.c:66-78: [n] keys left to try, current key [k] *)
Fixpoint create_loop (t : table) (d : option nat) (n k : nat) : table * out :=
  match n with
  | O => (t, EAGAIN)
  | S n' =>
      if Z.eqb (count (t k)) 0
      then (updt t k (mkE (count (t k) + 1) d (data (t k))), Key k)
      else create_loop t d n' (S k)
  end.

(** MTHREAD_CLEANUPSPECIFIC, mthread.c:83-100 *)
Fixpoint cleanup_loop (t : table) (tid : nat) (n k : nat) : table * list (nat * nat) :=
  match n with
  | O => (t, [])
  | S n' =>
      let e := t k in
      if negb (Z.eqb (count e) 0) then
        match data e tid with
        | Some p =>
            let t1 := updt t k (mkE (count e - 1) (destructor e) (updf (data e) tid None)) in
            let c := match destructor e with Some f => [(f, p)] | None => [] end in
            let '(t2, cs) := cleanup_loop t1 tid n' (S k) in (t2, c ++ cs)
        | None => cleanup_loop t tid n' (S k)
        end
      else cleanup_loop t tid n' (S k)
  end.

(** MTHREAD_SETSPECIFIC, mthread.c:105-127 *)
Definition set_specific (t : table) (tid key : nat) (v : ptr) : table * out :=
  if key <? NKEYS then
    let e := t key in
    if negb (Z.eqb (count e) 0) then
      if tid <? NTHREADS then
        let c := match data e tid, v with
                 | None, Some _ => (count e + 1)%Z
                 | Some _, None => (count e - 1)%Z
                 | _, _ => count e
                 end in
        (updt t key (mkE c (destructor e) (updf (data e) tid v)), OK)
      else (t, UB)
    else (t, EINVAL)
  else (t, EINVAL).

(** MTHREAD_GETSPECIFIC, mthread.c:132-145: the slot is read before the key is checked *)
Definition get_specific (t : table) (tid key : nat) : out :=
  if (key <? NKEYS) && (tid <? NTHREADS) then
    match data (t key) tid with
    | Some p => if negb (Z.eqb (count (t key)) 0) then Value (Some p) else Value None
    | None => Value None
    end
  else UB.

Definition step (t : table) (o : op) : table * out :=
  match o with
  | Create d => create_loop t d NKEYS 0
  | Set_ tid key v => set_specific t tid key v
  | Get tid key => (t, get_specific t tid key)
  | Cleanup tid =>
      if tid <? NTHREADS then
        let '(t', cs) := cleanup_loop t tid NKEYS 0 in (t', Destroyed cs)
      else (t, UB)
  end.

(** outputs of a sequence of calls *)
Fixpoint run (t : table) (os : list op) : list out :=
  match os with
  | [] => []
  | o :: os' => let '(t', r) := step t o in r :: run t' os'
  end.
Definition final (t : table) (os : list op) : table :=
  fold_left (fun t o => fst (step t o)) os t.

(** MTHREAD_ONCE, mthread.c:150-156: [done] is *once_control; [inits] counts
    the runs of the initialiser *)
Definition once (st : bool * nat) : bool * nat :=
  let '(done, inits) := st in if done then (done, inits) else (true, S inits).
