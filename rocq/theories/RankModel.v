(** Model of the ranking of kernels: kernelmethods/sampling.py:250-332 (ideal_kernel, correlation_km,
    pairwise_similarity), kernelmethods/utils.py:154-162 (min_max_scale) and
    kernelmethods/ranking.py. *)
From Coq Require Import String Reals List Bool Arith ZArith.
Import ListNotations.
From Verif Require Import Prelude MatModel UtilsModel KMModel XReal OpsModel KMXModel SetModel BucketModel.

(** sampling.py:250-268 [ideal_kernel]; the argument after [np.array] and flattening by [reshape]. *)
Definition ideal_kernel (targets : list xr) : mat xr :=
  matmul (mkMat (length targets) 1 (map (fun t => [t]) targets)) (mkMat 1 (length targets) [targets]).

(** [np.outer(targets, targets)] (ranking.py:144), which flattens its arguments. *)
Definition outer (targets : list xr) : mat xr :=
  let n := length targets in
  tabulate n n (fun i j => xmul (nth i targets NaN) (nth j targets NaN)).

(** [array.min()], [np.max(array)] on a non-empty array: NaN as soon as one is present. *)
Definition xmin2 (a b : xr) : xr :=
  if x_isnan a || x_isnan b then NaN else if xltb b a then b else a.
Definition xmax2 (a b : xr) : xr :=
  if x_isnan a || x_isnan b then NaN else if xltb a b then b else a.

(** utils.py:154-162 [min_max_scale]. *)
Definition min_max_scale (l : list xr) : res (list xr) :=
  match l with
  | [] => Raise ValueError
  | a :: l' =>
      let mn := fold_left xmin2 l' a in
      let spread := xsub (fold_left xmax2 l' a) mn in
      if xisclose spread (Fin 0) then Ok (map (fun _ => Fin 0) l)
      else Ok (map (fun v => xdiv (xsub v mn) spread) l)
  end.

(** [np.argmax]: the first NaN if there is one, else the first of the largest. *)
Fixpoint find_index (p : xr -> bool) (l : list xr) : option nat :=
  match l with
  | [] => None
  | a :: l' => if p a then Some 0 else option_map S (find_index p l')
  end.
Definition argmax (l : list xr) : res nat :=
  match l with
  | [] => Raise ValueError
  | a :: l' =>
      match find_index x_isnan l with
      | Some i => Ok i
      | None =>
          let mx := fold_left xmax2 l' a in
          match find_index (fun v => xeqb v mx) l with Some i => Ok i | None => Raise ValueError end
      end
  end.

(** sampling.py:271-289 [correlation_km]: [pearsonr(k1.ravel(), k2.ravel())] of scipy, on arrays of
    finite numbers: ValueError for different sizes or fewer than two numbers, NaN if one is constant.
    On other input the result is a parameter. *)
Section Corr.
  Variable corr_other : arr xr -> arr xr -> res xr.

  Definition ravel (a : arr xr) : list xr := concat (md (amat a)).
  Definition constant (l : list xr) : bool :=
    match l with [] => true | a :: l' => forallb (fun b => xeqb b a) l' end.
  Definition mean (l : list xr) : xr := xdiv (xsum l) (Fin (INR (length l))).
  Definition deviations (l : list xr) : list xr := map (fun v => xsub v (mean l)) l.
  Definition dotp (l l' : list xr) : xr := xsum (map (fun p => xmul (fst p) (snd p)) (combine l l')).
  (** [max(min(r, 1.0), -1.0)] *)
  Definition clip (r : xr) : xr :=
    let r := if xltb (Fin 1) r then Fin 1 else r in if xltb r (Fin (-1)) then Fin (-1) else r.

  Definition plain (a : arr xr) : bool :=
    match afmt a with Dense => forallb x_isfinite (ravel a) | _ => false end.

  Definition correlation_km (k1 k2 : arr xr) : res xr :=
    if negb (plain k1 && plain k2) then corr_other k1 k2
    else
      let x := ravel k1 in let y := ravel k2 in
      if negb (length x =? length y) then Raise ValueError
      else if length x <? 2 then Raise ValueError
      else if constant x || constant y then Ok NaN
      else
        let dx := deviations x in let dy := deviations y in
        let nx := xsqrt (dotp dx dx) in let ny := xsqrt (dotp dy dy) in
        Ok (clip (dotp (map (fun v => xdiv v nx) dx) (map (fun v => xdiv v ny) dy))).

  (** The dictionary at sampling.py:315-316; an unknown name raises KeyError. *)
  Definition metric_func (metric : string) : res (arr xr -> arr xr -> res xr) :=
    if String.eqb metric "corr" then Ok correlation_km
    else if String.eqb metric "align" then Ok (fun a b => alignment_centered a b (ZValue (Fin 0)) false)
    else Raise KeyError.

  Context {U : Type}.
  Notation World := (world xr xr U).
  Notation act := (M World).

  (** The body of the two loops, sampling.py:324-325, for the index pairs [ps]. *)
  Fixpoint fill_pairs (estimator : arr xr -> arr xr -> res xr) (k : nat) (ps : list (nat * nat))
           (P : mat xr) : act (mat xr) :=
    match ps with
    | [] => ret P
    | (i, j) :: ps' =>
        li <- set_getitem k (Some (Z.of_nat i)) ;;
        Ki <- obj_full xN li ;;
        lj <- set_getitem k (Some (Z.of_nat j)) ;;
        Kj <- obj_full xN lj ;;
        v <- lift (estimator Ki Kj) ;;
        fill_pairs estimator k ps' (mset P i j v)
    end.

  (** sampling.py:292-332 [pairwise_similarity]. The lower triangle, diagonal included, is assigned
      from the transpose; the right-hand side is evaluated before. *)
  Definition pairwise_similarity (k : nat) (metric : string) : act (mat xr) :=
    s <- get_set k ;;
    let n := length (s_members s) in
    estimator <- lift (metric_func metric) ;;
    P <- fill_pairs estimator k
           (flat_map (fun i => map (fun j => (i, j)) (seq i (n - i))) (seq 0 n))
           (tabulate n n (fun _ _ => NaN)) ;;
    ret (tabulate n n (fun i j => if j <=? i then xget P j i else xget P i j)).
End Corr.

(** ** ranking.py *)

(** A support vector machine of sklearn: SVR or SVC, the kernel, C. *)
Record svm : Type := mkSVM { svm_regression : bool; svm_kernel : string; svm_C : R }.

(** [np.power(10.0, range(-6, 6))] *)
Definition range_C : list R := map (fun e => powerRZ 10 e) [-6; -5; -4; -3; -2; -1; 0; 1; 2; 3; 4; 5]%Z.

(** ranking.py:153-194 [get_estimator]: the learner and the grid of values of C. *)
Definition get_estimator (learner_id : string) : res (svm * list R) :=
  let l := lower learner_id in
  if String.eqb l "svm" || String.eqb l "svc" then Ok (mkSVM false "precomputed" 10, range_C)
  else if String.eqb l "svr" then Ok (mkSVM true "precomputed" 10, range_C)
  else Raise NotImplementedErr.

(** Keyword arguments given to the ranking method: num_folds, estimator_name,
    value_if_zero_division, centered_already, and whether there is any other one. *)
Record rparams : Type := mkRP {
  rp_folds : option Z;
  rp_estimator : option string;
  rp_zero : option zero_div;
  rp_centered : option bool;
  rp_other : bool
}.
Definition no_params : rparams := mkRP None None None None false.
Definition default {A} (d : A) (o : option A) : A := match o with Some a => a | None => d end.

Section Rank.
  Context {U T : Type}.
  (** [np.asarray] of the targets, flattened; an exception for targets that cannot be multiplied. *)
  Variable numbers : T -> res (list xr).
  (** [GridSearchCV(estimator, param_grid, cv).fit(K, targets).best_score_] of sklearn. *)
  Variable best_score : svm * list R -> Z -> arr xr -> T -> res xr.
  Variable numeric : list xr -> bool.
  Notation World := (world xr xr U).
  Notation act := (M World).

  (** ranking.py:95-131 [CV_ranking]. Unexpected keyword arguments: TypeError. *)
  Definition CV_ranking (k : nat) (targets : T) (p : rparams) : act (list xr) :=
    if is_some (rp_zero p) || is_some (rp_centered p) || rp_other p then raise TypeError
    else
      ms <- set_iter k ;;
      scores <- map_each ms (fun l =>
        e <- lift (get_estimator (default "SVM"%string (rp_estimator p))) ;;
        K <- obj_full xN l ;;
        lift (best_score e (default 3%Z (rp_folds p)) K targets)) ;;
      lift (res_map (map (xmul (Fin 100))) (min_max_scale scores)).

  (** ranking.py:134-150 [alignment_ranking]. Unexpected keyword arguments reach
      alignment_centered, whose arguments have been evaluated by then: TypeError. *)
  Definition alignment_ranking (k : nat) (targets : T) (p : rparams) : act (list xr) :=
    ys <- lift (numbers targets) ;;
    ms <- set_iter k ;;
    map_each ms (fun l =>
      K <- obj_full xN l ;;
      if is_some (rp_folds p) || is_some (rp_estimator p) || rp_other p then raise TypeError
      else lift (alignment_centered K (mkArr Dense (outer ys)) (default (ZValue (Fin 0)) (rp_zero p))
                                    (default false (rp_centered p)))).

  Definition valid_method (method : string) : bool :=
    String.eqb (lower method) "align/corr" || String.eqb (lower method) "cv_risk".

  (** ranking.py:58-92 [rank_kernels]. *)
  Definition rank_kernels (k : nat) (targets : T) (method : string) (p : rparams) : act (list xr) :=
    if negb (valid_method method) then raise NotImplementedErr
    else if String.eqb (lower method) "align/corr" then alignment_ranking k targets p
    else CV_ranking k targets p.

  (** ranking.py:18-55 [find_optimal_kernel]; [None] for an argument that is not a KernelBucket. *)
  Definition find_optimal_kernel (b : option bucket) (sample : ndarray xr) (targets : T)
             (method : string) (p : rparams) : act nat :=
    match b with
    | None => raise TypeError
    | Some b =>
        if negb (valid_method method) then raise NotImplementedErr
        else
          set_attach numeric (b_set b) sample None ;;;
          scores <- rank_kernels (b_set b) targets (lower method) p ;;
          i <- lift (argmax scores) ;;
          set_getitem (b_set b) (Some (Z.of_nat i))
    end.
End Rank.
