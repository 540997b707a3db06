(** When the shared state of ThreadModel.v and the sequential object of KMModel.v are the same, for C101. *)
From Coq Require Import List Arith Bool String.
Import ListNotations.
From Verif Require Import Prelude MatModel KMModel ThreadModel.

(** The kernel on row [i] of the first and row [j] of the second sample. *)
Definition rows_value {E V} (kern : kernel E V) (x y : ndarray E) (i j : nat) : res V :=
  match nd_row x i, nd_row y j with
  | Ok a, Ok b => kf kern 0 a b
  | Raise e, _ => Raise e
  | _, Raise e => Raise e
  end.

(** The shared state and the sequential object are the same: attributes, memo, counter, and the array the
    reference [_full_km] points to. *)
Record same_object {E V U} (nan : V) (kern : kernel E V) (x y : ndarray E) (two : bool) (n m : nat)
    (s : shared V) (k : km E V U) : Prop := {
  so_kernel : k_kernel k = kern;
  so_plain : k_keep_normed k = false;
  so_sample : k_sample k = Some x;
  so_sample_two : k_sample_two k = Some y;
  so_two : k_two k = Some two;
  so_shape : k_shape k = Some (n, m);
  so_full : k_full k = option_map (fun p => mkArr Dense (array_at nan n m s p)) (sh_full s);
  so_ref : forall p, sh_full s = Some p -> p < List.length (sh_heap s);
  so_populated : k_populated k = sh_populated s;
  so_lower : k_lower k = sh_lower s;
  so_memo : k_memo k = sh_memo s;
  so_evals : k_evals k = sh_evals s
}.

(** The request as a call of the sequential object, and when its outcome is the same. *)
Definition as_call {E V U} (N : numops V) (o : rop) : M (km E V U) (arr V + list V) :=
  match o with
  | ROIndex rows cols => fun k => let r := compute_for_index_combinations rows cols k in
      (fst r, match snd r with Ok a => Ok (inl a) | Raise e => Raise e end)
  | RODiagonal => fun k => let r := diagonal k in
      (fst r, match snd r with Ok l => Ok (inr l) | Raise e => Raise e end)
  | ROFull => fun k => let r := full N k in
      (fst r, match snd r with Ok a => Ok (inl a) | Raise e => Raise e end)
  end.
Definition same_outcome {V} (nan : V) (n m : nat) (s : shared V) (r : res (rout V)) (r' : res (arr V + list V)) : Prop :=
  match r, r' with
  | Ok (RMat a), Ok (inl b) => b = mkArr Dense a
  | Ok (RVec l), Ok (inr l') => l' = l
  | Ok (RRef p), Ok (inl b) => sh_full s = Some p /\ b = mkArr Dense (array_at nan n m s p)
  | Raise e, Raise e' => e = e'
  | _, _ => False
  end.
