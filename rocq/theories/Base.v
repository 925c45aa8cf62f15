(** Base: exceptions as values, Python list indexing, numpy helpers. *)
From Coq Require Export List ZArith Bool Lia.
From Coq Require Import ZifyBool ZifyNat.
Export ListNotations.
Open Scope Z_scope.

(** Exception classes that the modelled code raises.
    /repo/timeboard/exceptions.py:1-24 (OutOfBoundsError, PartialOutOfBoundsError,
    VoidIntervalError, UnacceptablePeriodError are four different classes, none a
    subclass of another) and the Python built-ins. *)
Inductive err : Type :=
| EOutOfBounds | EPartialOutOfBounds | EVoidInterval | EUnacceptablePeriod
| EKey | EValue | EType | EIndex | ERuntime | EAssertion | EAttribute
| EStopIteration | EZeroDivision
| EFuel  (* not a Python exception: a model loop ran out of fuel; proved unreachable *).

(** A Python call either returns a value or raises. *)
Inductive res (A : Type) : Type :=
| Ok (a : A)
| Err (e : err).
Arguments Ok {A} a.
Arguments Err {A} e.

Definition bind {A B : Type} (r : res A) (f : A -> res B) : res B :=
  match r with Ok a => f a | Err e => Err e end.

Notation "'do' x <- r ; k" := (bind r (fun x => k))
  (at level 200, x name, r at level 100, k at level 200).

Definition rmap {A B : Type} (f : A -> B) (r : res A) : res B :=
  match r with Ok a => Ok (f a) | Err e => Err e end.

Definition is_ok {A : Type} (r : res A) : bool :=
  match r with Ok _ => true | Err _ => false end.

(** Python [len]. *)
Definition zlen {A : Type} (l : list A) : Z := Z.of_nat (length l).

(** The positions [a, a+1, ..., a+n-1]. *)
Fixpoint zrange (a : Z) (n : nat) : list Z :=
  match n with
  | O => []
  | S m => a :: zrange (a + 1) m
  end.

(** Non-negative indexing. *)
Definition znth {A : Type} (l : list A) (i : Z) : option A :=
  if i <? 0 then None else nth_error l (Z.to_nat i).

(** Python's [l[i]] (also pandas' [iloc[i]] and [index[i]]): a negative index counts
    from the end; [None] stands for IndexError. *)
Definition py_get {A : Type} (l : list A) (i : Z) : option A :=
  if i <? 0
  then (if i + zlen l <? 0 then None else nth_error l (Z.to_nat (i + zlen l)))
  else nth_error l (Z.to_nat i).

Definition py_get_res {A : Type} (l : list A) (i : Z) : res A :=
  match py_get l i with Some a => Ok a | None => Err EIndex end.

(** Python's slice [l[a:b]] for 0 <= a, 0 <= b. *)
Definition py_slice {A : Type} (l : list A) (a b : Z) : list A :=
  firstn (Z.to_nat (b - a)) (skipn (Z.to_nat a) l).

(** [np.searchsorted(a, x, side='left')] on an ascending array [a]: the number of
    elements strictly below [x].  (numpy's binary search returns the unique insertion
    point, which on an ascending array is this count.) *)
Definition ss_left (l : list Z) (x : Z) : Z :=
  zlen (filter (fun a => a <? x) l).

(** [np.searchsorted(a, x, side='right')]: the number of elements <= [x]. *)
Definition ss_right (l : list Z) (x : Z) : Z :=
  zlen (filter (fun a => a <=? x) l).

(** [np.nonzero(mask)[0]]: positions of the true elements, ascending.
    /repo/timeboard/utils.py:17-28 *)
Fixpoint nonzero_from (i : Z) (m : list bool) : list Z :=
  match m with
  | [] => []
  | b :: m' => if b then i :: nonzero_from (i + 1) m' else nonzero_from (i + 1) m'
  end.
Definition nonzero (m : list bool) : list Z := nonzero_from 0 m.

(** Ascending sort (np.sort, sorted). *)
Fixpoint zinsert (x : Z) (l : list Z) : list Z :=
  match l with
  | [] => [x]
  | y :: l' => if x <=? y then x :: l else y :: zinsert x l'
  end.
Fixpoint zsort (l : list Z) : list Z :=
  match l with
  | [] => []
  | x :: l' => zinsert x (zsort l')
  end.

(** [set(l)] followed by [sorted]: drop equal neighbours of a sorted list. *)
Fixpoint zdedup (l : list Z) : list Z :=
  match l with
  | [] => []
  | x :: l' =>
      match l' with
      | [] => [x]
      | y :: _ => if x =? y then zdedup l' else x :: zdedup l'
      end
  end.

Definition zsum (l : list Z) : Z := fold_right Z.add 0 l.

(** Position of the first element equal to [x] ([Index.get_loc] on a unique index). *)
Fixpoint find_pos (l : list Z) (x : Z) : option Z :=
  match l with
  | [] => None
  | y :: l' => if y =? x then Some 0
               else match find_pos l' x with Some p => Some (p + 1) | None => None end
  end.

(** [itertools.cycle(l)] as a state machine: [cur] is what is left of the current pass.
    Take [n] elements; return them with the new state.  An empty [l] yields nothing. *)
Fixpoint cyc_take {A : Type} (l cur : list A) (n : nat) : list A * list A :=
  match n with
  | O => ([], cur)
  | S m =>
      match cur with
      | x :: cur' => let (t, r) := cyc_take l cur' m in (x :: t, r)
      | [] => match l with
              | [] => ([], [])
              | x :: l' => let (t, r) := cyc_take l l' m in (x :: t, r)
              end
      end
  end.

(** [l[a : a+len v] = v] (numpy slice assignment), 0 <= a. *)
Definition splice {A : Type} (l : list A) (a : Z) (v : list A) : list A :=
  firstn (Z.to_nat a) l ++ v ++ skipn (Z.to_nat a + length v) l.

(** [l[i] = x], 0 <= i < len l; unchanged when [i] is out of range. *)
Fixpoint set_nth {A : Type} (l : list A) (i : nat) (x : A) : list A :=
  match l with
  | [] => []
  | y :: l' => match i with O => x :: l' | S j => y :: set_nth l' j x end
  end.

(** All the elements succeed, in order; the first failure wins (a Python loop). *)
Fixpoint mapM {A B : Type} (f : A -> res B) (l : list A) : res (list B) :=
  match l with
  | [] => Ok []
  | x :: l' => do y <- f x; do ys <- mapM f l'; Ok (y :: ys)
  end.
