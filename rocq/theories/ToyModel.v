(** Small computable instances used by the examples and counterexamples: integer values
    with [None] for NaN, the dot-product kernel, kernels that raise at chosen calls. *)
From Coq Require Import String List Arith ZArith Bool.
Import ListNotations.
From Verif Require Import Prelude MatModel IndexModel KMModel SpecKM.
Local Open Scope Z_scope.

Definition oadd (a b : option Z) : option Z :=
  match a, b with Some x, Some y => Some (x + y) | _, _ => None end.
Definition omul (a b : option Z) : option Z :=
  match a, b with Some x, Some y => Some (x * y) | _, _ => None end.
Definition osub (a b : option Z) : option Z :=
  match a, b with Some x, Some y => Some (x - y) | _, _ => None end.

(** Not the library's arithmetic (that is OpsModel.v): normalising copies the matrix,
    centring subtracts the (0,0) entry and, like the library, rejects sparse matrices. *)
Definition toyN : numops (option Z) := mkNumops
  None (Some 0) is_some
  (fun meth a => if String.eqb (lower meth) "cosine" then Ok (mkArr Dense (amat a))
                 else Raise NotImplementedErr)
  (fun a _ _ => Ok (mkArr Dense (amat a)))
  (fun a => if is_sparse a then Raise ValueError
            else Ok (mkArr Dense (tabulate (mr (amat a)) (mc (amat a))
                       (fun i j => osub (mget None (amat a) i j) (mget None (amat a) 0 0)))))
  (fun a => Ok (fold_right oadd (Some 0) (map (fun i => mget None (amat a) i i) (seq 0 (mr (amat a)))))).

Definition dotk (u v : list (option Z)) : option Z :=
  fold_right oadd (Some 0) (map (fun p => omul (fst p) (snd p)) (combine u v)).
(** Not symmetric. *)
Definition asymk (u v : list (option Z)) : option Z :=
  osub (nth 0 u (Some 0)) (nth 0 v (Some 0)).

Definition dot : kernel (option Z) (option Z) := mkKernel (fun _ u v => Ok (dotk u v)) true.
(** Raises at every third call. *)
Definition flaky (k : list (option Z) -> list (option Z) -> option Z)
  : kernel (option Z) (option Z) :=
  mkKernel (fun t u v => if Nat.eqb (Nat.modulo t 3) 2 then Raise RuntimeError else Ok (k u v)) true.
Definition flaky_dot := flaky dotk.
Definition flaky_asym := flaky asymk.
(** A user callable wrapped in KernelFromCallable: not formattable. *)
Definition callable (k : list (option Z) -> list (option Z) -> option Z)
  : kernel (option Z) (option Z) := mkKernel (fun _ u v => Ok (k u v)) false.

Lemma dot_total : forall x y n m d, never_raises dot dotk x y n m d.
Proof. intros x y n m d t u v _ _. reflexivity. Qed.
Lemma flaky_returns : forall x y n m d, returns_only flaky_dot dotk x y n m d.
Proof. intros x y n m d t u v _ _. cbn. destruct (Nat.eqb _ _); eauto. Qed.
Lemma flaky_asym_returns : forall x y n m d, returns_only flaky_asym asymk x y n m d.
Proof. intros x y n m d t u v _ _. cbn. destruct (Nat.eqb _ _); eauto. Qed.

Definition toyX : ndarray (option Z) :=
  mkNd [3; 2]%nat [Some 1; Some 2; Some 3; Some 4; Some 5; Some 6].
Definition toyX2 : ndarray (option Z) := mkNd [2; 2]%nat [Some 2; Some 0; Some 0; Some 1].
Definition toyA : ndarray (option Z) := mkNd [1; 1]%nat [Some 2].
Definition toyB : ndarray (option Z) := mkNd [1; 1]%nat [Some 3].

Lemma toyX_ok : admissible toyX None 3 3 2.
Proof. split; [exists []; split; [reflexivity|constructor]|reflexivity]. Qed.
Lemma toyXX2_ok : admissible toyX (Some toyX2) 3 2 2.
Proof. split; exists []; (split; [reflexivity|constructor]). Qed.
Lemma toyAB_ok : admissible toyA (Some toyB) 1 1 1.
Proof. split; exists []; (split; [reflexivity|constructor]). Qed.
