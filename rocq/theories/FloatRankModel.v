(** min_max_scale of kernelmethods/utils.py and the scaled scores of CV_ranking of kernelmethods/ranking.py in
    IEEE 754 double precision (FloatModel.v). The scores themselves come from sklearn. *)
From Coq Require Import ZArith Bool List Arith Floats.SpecFloat.
Import ListNotations.
From Verif Require Import Prelude FloatModel FloatOpsModel.

(** [array.min()], [np.max(array)] on a non-empty array: NaN as soon as one is present. *)
Definition fmin2 (a b : f64) : f64 := if f_isnan a || f_isnan b then S754_nan else if fltb b a then b else a.
Definition fmax2 (a b : f64) : f64 := if f_isnan a || f_isnan b then S754_nan else if fltb a b then b else a.

(** utils.py:154-162 *)
Definition fmin_max_scale (l : list f64) : res (list f64) :=
  match l with
  | [] => Raise ValueError
  | a :: l' =>
      let mn := fold_left fmin2 l' a in
      let spread := fsub (fold_left fmax2 l' a) mn in
      if fisclose spread fzero then Ok (map (fun _ => fzero) l)
      else Ok (map (fun v => fdiv (fsub v mn) spread) l)
  end.

(** ranking.py:131, for the list of cv_scores. *)
Definition fcv_scores (l : list f64) : res (list f64) := res_map (map (fmul (fint 100))) (fmin_max_scale l).

(** [np.argmax] (ranking.py:55): the first NaN if there is one, else the first of the largest. *)
Fixpoint ffind (p : f64 -> bool) (l : list f64) : option nat :=
  match l with
  | [] => None
  | a :: l' => if p a then Some 0 else option_map S (ffind p l')
  end.
Definition fargmax (l : list f64) : res nat :=
  match l with
  | [] => Raise ValueError
  | a :: l' =>
      match ffind f_isnan l with
      | Some i => Ok i
      | None =>
          match ffind (fun v => SFeqb v (fold_left fmax2 l' a)) l with Some i => Ok i | None => Raise ValueError end
      end
  end.
