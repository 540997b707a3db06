(** Common vocabulary of the model: Python exceptions as values, and a
    state-and-exception monad in which a method that mutates [self] and then
    raises returns the MUTATED state together with the exception. *)
From Coq Require Import String Ascii List Bool Arith ZArith.
Import ListNotations.

(** Exceptions. Library exceptions: kernelmethods/config.py:4-35; the others are
    Python builtins or numpy errors raised by the modelled code. [Custom n] stands for
    any other exception raised by a user-supplied kernel (including
    KeyboardInterrupt arriving while the kernel runs). *)
Inductive exn : Type :=
| KMAccessError | KMNormError | KMSetAdditionError | Chi2NegativeValues
| KernelMethodsError
| ValueError | TypeError | IndexError | AttributeError | NameError | KeyError
| NotImplementedErr | RuntimeError | NotFittedErr | OverflowErr
| Custom (n : nat).

Inductive res (A : Type) : Type :=
| Ok (a : A)
| Raise (e : exn).
Arguments Ok {A} a.
Arguments Raise {A} e.

Definition is_ok {A} (r : res A) : bool :=
  match r with Ok _ => true | Raise _ => false end.

Definition rbind {A B} (r : res A) (f : A -> res B) : res B :=
  match r with Ok a => f a | Raise e => Raise e end.


(** Apply a function to the value of a result. *)
Definition res_map {A B} (f : A -> B) (r : res A) : res B :=
  match r with Ok a => Ok (f a) | Raise e => Raise e end.

(** Result monad over lists (no state). *)
Fixpoint rmap {A B} (f : A -> res B) (l : list A) : res (list B) :=
  match l with
  | [] => Ok []
  | a :: l' => rbind (f a) (fun b => rbind (rmap f l') (fun bs => Ok (b :: bs)))
  end.

(** State + exceptions. *)
Definition M (St A : Type) : Type := St -> St * res A.

Definition ret {St A} (a : A) : M St A := fun s => (s, Ok a).
Definition raise {St A} (e : exn) : M St A := fun s => (s, Raise e).
Definition bind {St A B} (m : M St A) (f : A -> M St B) : M St B :=
  fun s => match m s with
           | (s', Ok a) => f a s'
           | (s', Raise e) => (s', Raise e)
           end.
Definition get {St} : M St St := fun s => (s, Ok s).
Definition modify {St} (f : St -> St) : M St unit := fun s => (f s, Ok tt).
Definition lift {St A} (r : res A) : M St A := fun s => (s, r).

(** [try: m  except: raise e]  (a bare except, catching everything). *)
Definition try_except {St A} (m : M St A) (e : exn) : M St A :=
  fun s => match m s with
           | (s', Ok a) => (s', Ok a)
           | (s', Raise _) => (s', Raise e)
           end.

Declare Scope km_scope.
Notation "x <- m ;; k" := (bind m (fun x => k))
  (at level 61, m at next level, right associativity) : km_scope.
Notation "m ;;; k" := (bind m (fun _ => k))
  (at level 61, right associativity) : km_scope.
Open Scope km_scope.

(** [for x in l: body x] *)
Fixpoint for_each {St A} (l : list A) (body : A -> M St unit) : M St unit :=
  match l with
  | [] => ret tt
  | a :: l' => body a ;;; for_each l' body
  end.

(** [[body x for x in l]] *)
Fixpoint map_each {St A B} (l : list A) (body : A -> M St B) : M St (list B) :=
  match l with
  | [] => ret []
  | a :: l' => b <- body a ;; bs <- map_each l' body ;; ret (b :: bs)
  end.

Definition when {St} (b : bool) (m : M St unit) : M St unit :=
  if b then m else ret tt.

(** [str.lower()] restricted to ASCII. *)
Definition lower_ascii (c : ascii) : ascii :=
  let n := nat_of_ascii c in
  if (Nat.leb 65 n && Nat.leb n 90)%bool then ascii_of_nat (n + 32) else c.

Fixpoint lower (s : string) : string :=
  match s with
  | EmptyString => EmptyString
  | String c s' => String (lower_ascii c) (lower s')
  end.

Definition is_some {A} (o : option A) : bool :=
  match o with Some _ => true | None => false end.

(** All pairs in the order of [itertools.product(l1, l2)]. *)
Definition product {A B} (l1 : list A) (l2 : list B) : list (A * B) :=
  flat_map (fun a => map (fun b => (a, b)) l2) l1.
