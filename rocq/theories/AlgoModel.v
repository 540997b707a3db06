(** Model of kernelmethods/algorithms.py: BaseKernelMachine with KernelMachine and
    KernelMachineRegressor (25-235), BaseOptimalKernelMachine with OptimalKernelSVR and
    OptimalKernelSVC (238-704). The support vector machines and the input checks of sklearn are
    parameters. *)
From Coq Require Import String Reals List Bool Arith ZArith.
Import ListNotations.
From Verif Require Import Prelude MatModel UtilsModel KMModel XReal OpsModel KernelsModel KMXModel SetModel
  BucketModel RankModel.

(** A value given for one of the parameters k_func, learner_id, normalized: a kernel function, a
    string, a bool, None or anything else. *)
Inductive pval : Type :=
| PKernel (K : kernel xr xr)
| PStr (s : string)
| PBool (b : bool)
| PNone
| POther (n : nat).

(** The kernel as it behaves after [c] calls. *)
Definition shift (c : nat) (K : kernel xr xr) : kernel xr xr := mkKernel (fun t => kf K (c + t)) (kfmt K).

(** What sklearn contributes. [XIn], [YIn], [W]: whatever the caller passes as X, y, sample_weight;
    [Y]: validated targets; [F]: what a support vector machine has learnt; [P]: predictions. *)
Record sklearn (XIn YIn W Y F P : Type) : Type := mkSk {
  (* check_X_y(X, y, y_numeric=...) *)
  sk_check_X_y : bool -> XIn -> YIn -> res (ndarray xr * Y);
  (* check_array(X) *)
  sk_check_array : XIn -> res (ndarray xr);
  (* y.astype(np.float64) *)
  sk_float : Y -> res Y;
  (* np.asarray(predicted_y, dtype=y.dtype); np.asarray(predicted_y, dtype=np.intp) *)
  sk_cast : Y -> P -> res P;
  sk_int : P -> res P;
  (* a new SVC or SVR; its fit (which changes it even if it raises) and predict *)
  sk_new : F;
  sk_fit : svm -> F -> arr xr -> Y -> W -> F * res unit;
  sk_predict : svm -> F -> arr xr -> res P
}.
Arguments mkSk {XIn YIn W Y F P}.
Arguments sk_check_X_y {XIn YIn W Y F P} s.
Arguments sk_check_array {XIn YIn W Y F P} s.
Arguments sk_float {XIn YIn W Y F P} s.
Arguments sk_cast {XIn YIn W Y F P} s.
Arguments sk_int {XIn YIn W Y F P} s.
Arguments sk_new {XIn YIn W Y F P} s.
Arguments sk_fit {XIn YIn W Y F P} s.
Arguments sk_predict {XIn YIn W Y F P} s.

(** ** KernelMachine and KernelMachineRegressor *)
Section Machine.
  Context {XIn YIn W Y F P : Type}.
  Variable S : sklearn XIn YIn W Y F P.

  (** Fields of option type model attributes that do not exist at first. [m_calls]: the number of
      calls of kernels made before the current KernelMatrix was created (ghost). *)
  Record machine : Type := mkMach {
    m_regressor : bool;                    (* the class: KernelMachineRegressor or KernelMachine *)
    m_k_func : pval;
    m_learner_id : pval;
    m_normalized : pval;
    m_train : option (ndarray xr * Y);     (* self._train_X, self._train_y *)
    m_km : option (km xr xr unit);         (* self._km *)
    m_estimator : option (svm * F);        (* self._estimator *)
    m_calls : nat
  }.

  Notation act := (M machine).

  Definition set_k_func v m := mkMach (m_regressor m) v (m_learner_id m) (m_normalized m) (m_train m) (m_km m) (m_estimator m) (m_calls m).
  Definition set_learner_id v m := mkMach (m_regressor m) (m_k_func m) v (m_normalized m) (m_train m) (m_km m) (m_estimator m) (m_calls m).
  Definition set_normalized v m := mkMach (m_regressor m) (m_k_func m) (m_learner_id m) v (m_train m) (m_km m) (m_estimator m) (m_calls m).
  Definition set_train v m := mkMach (m_regressor m) (m_k_func m) (m_learner_id m) (m_normalized m) (Some v) (m_km m) (m_estimator m) (m_calls m).
  Definition set_km v c m := mkMach (m_regressor m) (m_k_func m) (m_learner_id m) (m_normalized m) (m_train m) (Some v) (m_estimator m) c.
  Definition set_estimator v m := mkMach (m_regressor m) (m_k_func m) (m_learner_id m) (m_normalized m) (m_train m) (m_km m) (Some v) (m_calls m).
  Definition set_calls c m := mkMach (m_regressor m) (m_k_func m) (m_learner_id m) (m_normalized m) (m_train m) (m_km m) (m_estimator m) c.

  (** algorithms.py:67-69, 233-235 [__init__]; the default sigma of GaussianKernel is 2
      (numeric_kernels.py:170). *)
  Definition machine_new (regressor : bool) (k_func learner_id normalized : pval) : machine :=
    mkMach regressor
           (match k_func with PNone => PKernel (builtin (KGaussian (Fin 2))) | v => v end)
           learner_id normalized None None None 0.

  (** Kernel calls made so far. *)
  Definition calls_made (m : machine) : nat :=
    m_calls m + match m_km m with Some t => length (g_calls t) | None => 0 end.

  (** [self._km = KernelMatrix(self.k_func, normalized=self.normalized)] with the checks of
      base.py:195-200. *)
  Definition new_km : act unit :=
    m <- get ;;
    match m_k_func m, m_normalized m with
    | PKernel K, PBool nrm =>
        modify (set_km (km_new (shift (calls_made m) K) nrm []) (calls_made m))
    | _, _ => raise TypeError
    end.

  (** A method of [self._km]. *)
  Definition with_km {A} (a : M (km xr xr unit) A) : act A :=
    fun m => match m_km m with
             | None => (m, Raise AttributeError)
             | Some t => let (t', r) := a t in (set_km t' (m_calls m) m, r)
             end.

  (** Reading an attribute that may not exist. *)
  Definition attribute {A} (f : machine -> option A) : act A :=
    m <- get ;; match f m with Some a => ret a | None => raise AttributeError end.

  (** algorithms.py:72-120 [fit]. [get_estimator] calls [lower] on the id (AttributeError if it is
      not a string). SVR objects have no [classes_]. *)
  Definition machine_fit (X : XIn) (y : YIn) (w : W) : act unit :=
    m <- get ;;
    (if m_regressor m
     then
       xy <- lift (sk_check_X_y S true X y) ;;
       modify (set_train xy) ;;;
       y' <- lift (sk_float S (snd xy)) ;;
       modify (set_train (fst xy, y'))
     else
       xy <- lift (sk_check_X_y S false X y) ;;
       modify (set_train xy)) ;;;
    new_km ;;;
    xy <- attribute m_train ;;
    with_km (attach_to (fst xy) None) ;;;
    eg <- lift (match m_learner_id m with
                | PStr s => get_estimator s
                | _ => Raise AttributeError
                end) ;;
    modify (set_estimator (fst eg, sk_new S)) ;;;
    K <- with_km (full xN) ;;
    let fr := sk_fit S (fst eg) (sk_new S) K (snd xy) w in
    modify (set_estimator (fst eg, fst fr)) ;;;
    lift (snd fr) ;;;
    when (negb (m_regressor m) && svm_regression (fst eg)) (raise AttributeError).

  (** algorithms.py:123-153 [predict]. *)
  Definition machine_predict (X : XIn) : act P :=
    m <- get ;;
    match m_km m with
    | None => raise NotFittedErr
    | Some _ =>
        test_X <- lift (sk_check_array S X) ;;
        new_km ;;;
        xy <- attribute m_train ;;
        with_km (attach_to test_X (Some (fst xy))) ;;;
        ef <- attribute m_estimator ;;
        K <- with_km (full xN) ;;
        p <- lift (sk_predict S (fst ef) (snd ef) K) ;;
        lift (sk_cast S (snd xy) p)
    end.

  (** algorithms.py:156-161 [get_params]. *)
  Definition machine_get_params (m : machine) : list (string * pval) :=
    [("k_func"%string, m_k_func m); ("normalized"%string, m_normalized m);
     ("learner_id"%string, m_learner_id m)].

  (** algorithms.py:164-171 [set_params]. *)
  Definition machine_set_params (ps : list (string * pval)) : act unit :=
    for_each ps (fun p =>
      if String.eqb (fst p) "k_func" then modify (set_k_func (snd p))
      else if String.eqb (fst p) "learner_id" then modify (set_learner_id (snd p))
      else if String.eqb (fst p) "normalized" then modify (set_normalized (snd p))
      else ret tt).

  (** What a program does with a machine. [MElsewhere c]: the kernels it uses are called [c] times
      by someone else. *)
  Inductive mop : Type :=
  | MFit (X : XIn) (y : YIn) (w : W)
  | MPredict (X : XIn)
  | MSet (ps : list (string * pval))
  | MGet
  | MElsewhere (c : nat).

  Inductive mout : Type := MUnit | MPred (p : P) | MParams (ps : list (string * pval)).

  Definition mfmap {A B} (f : A -> B) (a : act A) : act B := x <- a ;; ret (f x).

  Definition mstep (o : mop) : act mout :=
    match o with
    | MFit X y w => mfmap (fun _ => MUnit) (machine_fit X y w)
    | MPredict X => mfmap MPred (machine_predict X)
    | MSet ps => mfmap (fun _ => MUnit) (machine_set_params ps)
    | MGet => m <- get ;; ret (MParams (machine_get_params m))
    | MElsewhere c => modify (fun m => set_calls (m_calls m + c) m) ;;; ret MUnit
    end.

  Fixpoint mrun (os : list mop) (m : machine) : machine :=
    match os with [] => m | o :: os' => mrun os' (fst (mstep o m)) end.
End Machine.
Arguments machine : clear implicits.
Arguments mop : clear implicits.
Arguments mout : clear implicits.

(** ** OptimalKernelSVC and OptimalKernelSVR *)

(** A value of a parameter (k_bucket, method, C, epsilon, shrinking, tol): a KernelBucket, a string,
    or anything else. *)
Inductive oval (Q : Type) : Type := OVBucket (b : bucket) | OVStr (s : string) | OVOther (q : Q).
Arguments OVBucket {Q}.
Arguments OVStr {Q}.
Arguments OVOther {Q}.

(** The SVC or SVR the object is: sklearn.svm.SVR or SVC, kernel, other settings. *)
Record svm_self (Q : Type) : Type := mkSelf {
  self_regression : bool;
  self_kernel : string;
  self_settings : list (string * option (oval Q))
}.
Arguments mkSelf {Q}.
Arguments self_regression {Q} s.
Arguments self_kernel {Q} s.
Arguments self_settings {Q} s.

Section Optimal.
  Context {U XIn YIn W Y F P Q : Type}.
  Variable S : sklearn XIn YIn W Y F P.
  (** SVC.fit, SVR.fit (which change the object even if they raise) and predict. *)
  Variable self_fit : svm_self Q -> F -> arr xr -> Y -> W -> F * res unit.
  Variable self_predict : svm_self Q -> F -> arr xr -> res P.
  (** As in RankModel. *)
  Variable numbers : Y -> res (list xr).
  Variable best_score : svm * list R -> Z -> arr xr -> Y -> res xr.
  Variable numeric : list xr -> bool.
  Variable C : cmpops xr.

  Record optimal : Type := mkOpt {
    o_regressor : bool;                       (* the class: OptimalKernelSVR or OptimalKernelSVC *)
    o_params : list (string * oval Q);        (* self.k_bucket, self.method, self.C, ... *)
    o_copy : option bucket;                   (* self._k_bucket *)
    o_train : option (ndarray xr * Y);        (* self._train_X, self._train_y *)
    o_opt_kernel : option nat;                (* self.opt_kernel_ *)
    o_model : F                               (* the attributes of SVC or SVR set by fit *)
  }.

  (** The estimator and the heap of kernel matrices and sets. *)
  Notation Heap := (world xr xr U).
  Notation act := (M (optimal * Heap)).

  Definition oset_param n v o := mkOpt (o_regressor o) (dict_set (o_params o) n v) (o_copy o) (o_train o) (o_opt_kernel o) (o_model o).
  Definition oset_copy v o := mkOpt (o_regressor o) (o_params o) (Some v) (o_train o) (o_opt_kernel o) (o_model o).
  Definition oset_train v o := mkOpt (o_regressor o) (o_params o) (o_copy o) (Some v) (o_opt_kernel o) (o_model o).
  Definition oset_opt v o := mkOpt (o_regressor o) (o_params o) (o_copy o) (o_train o) (Some v) (o_model o).
  Definition oset_model v o := mkOpt (o_regressor o) (o_params o) (o_copy o) (o_train o) (o_opt_kernel o) v.

  Definition on_heap {A} (a : M Heap A) : act A :=
    fun s => let (w, r) := a (snd s) in ((fst s, w), r).
  Definition oget : act optimal := s <- get ;; ret (fst s).
  Definition omodify (f : optimal -> optimal) : act unit := modify (fun s => (f (fst s), snd s)).
  Definition oattribute {A} (f : optimal -> option A) : act A :=
    o <- oget ;; match f o with Some a => ret a | None => raise AttributeError end.

  (** The settings of the support vector machine, and the names known to get_params and set_params. *)
  Definition setting_names (regressor : bool) : list string :=
    (if regressor then ["C"; "epsilon"; "shrinking"; "tol"] else ["C"; "shrinking"; "tol"])%string.
  Definition param_names (regressor : bool) : list string :=
    ("k_bucket" :: "method" :: setting_names regressor)%string.

  (** algorithms.py:483-527, 615-651 [__init__]: all parameters of the class are set. *)
  Definition optimal_new (regressor : bool) (unfitted : F) (value : string -> oval Q) : optimal :=
    mkOpt regressor (map (fun n => (n, value n)) (param_names regressor)) None None None unfitted.

  (** [deepcopy(bucket)]: new objects for all members, shared as the members are. The model copies
      every object of the heap; the unreachable copies do no harm. *)
  Definition deepcopy (b : bucket) : M Heap bucket :=
    s <- get_set (b_set b) ;;
    w <- get ;;
    modify (set_objs (w_objs w ++ w_objs w)) ;;;
    k <- new_set (mkSet (s_num s) (s_init s) (map (fun l => length (w_objs w) + l) (s_members s))
                        (s_sample s)) ;;
    ret (mkBucket k (b_norm b)).

  (** algorithms.py:530-538, 654-662 [_find_optimal_kernel]; [method.lower] of something that is not
      a string is an AttributeError. *)
  Definition opt_search (b : bucket) (xy : ndarray xr * Y) : act nat :=
    o <- oget ;;
    match dict_get (o_params o) "method" with
    | Some (OVStr m) =>
        on_heap (find_optimal_kernel numbers best_score numeric (Some b) (fst xy) (snd xy) m
                   (mkRP None (Some (if o_regressor o then "SVR" else "SVC")%string) None None false))
    | _ => raise AttributeError
    end.

  (** The support vector machine: constructed without the argument kernel (algorithms.py:520, 645),
      which is 'rbf' by default. *)
  Definition opt_svm (o : optimal) : svm_self Q :=
    mkSelf (o_regressor o) "rbf"
           (map (fun n => (n, dict_get (o_params o) n)) (setting_names (o_regressor o))).

  (** algorithms.py:306-365 [fit]. *)
  Definition optimal_fit (X : XIn) (y : YIn) (w : W) : act unit :=
    o <- oget ;;
    b <- match dict_get (o_params o) "k_bucket" with
         | Some (OVStr s) =>
             on_heap (try_except (make_kernel_bucket xN C (SName s) (Some true) (Some false)) ValueError)
         | Some (OVBucket b) => on_heap (deepcopy b)
         | _ => raise ValueError
         end ;;
    omodify (oset_copy b) ;;;
    xy <- lift (sk_check_X_y S true X y) ;;
    omodify (oset_train xy) ;;;
    l <- opt_search b xy ;;
    omodify (oset_opt l) ;;;
    K <- on_heap (obj_full xN l) ;;
    let fr := self_fit (opt_svm o) (o_model o) K (snd xy) w in
    omodify (oset_model (fst fr)) ;;;
    lift (snd fr).

  (** algorithms.py:368-396 [predict] and 665-683 (OptimalKernelSVC). *)
  Definition optimal_predict (X : XIn) : act P :=
    o <- oget ;;
    match o_opt_kernel o with
    | None => raise NotFittedErr
    | Some l =>
        x <- lift (sk_check_array S X) ;;
        xy <- oattribute o_train ;;
        on_heap (on_km l (attach_to x (Some (fst xy)))) ;;;
        K <- on_heap (obj_full xN l) ;;
        p <- lift (self_predict (opt_svm o) (o_model o) K) ;;
        if o_regressor o then ret p else lift (sk_int S p)
    end.

  (** algorithms.py:541-549, 686-693 [get_params]. *)
  Definition optimal_get_params (o : optimal) : list (string * option (oval Q)) :=
    map (fun n => (n, dict_get (o_params o) n)) (param_names (o_regressor o)).

  (** algorithms.py:552-560, 696-704 [set_params]. *)
  Definition optimal_set_params (ps : list (string * oval Q)) : act unit :=
    for_each ps (fun p =>
      o <- oget ;;
      if existsb (String.eqb (fst p)) (param_names (o_regressor o))
      then omodify (oset_param (fst p) (snd p)) else ret tt).

  Inductive oop : Type :=
  | OFit (X : XIn) (y : YIn) (w : W)
  | OPredict (X : XIn)
  | OSet (ps : list (string * oval Q))
  | OGet.

  Inductive oout : Type := OODone | OOPred (p : P) | OOParams (ps : list (string * option (oval Q))).

  Definition ofmap {A B} (f : A -> B) (a : act A) : act B := x <- a ;; ret (f x).

  Definition ostep (op : oop) : act oout :=
    match op with
    | OFit X y w => ofmap (fun _ => OODone) (optimal_fit X y w)
    | OPredict X => ofmap OOPred (optimal_predict X)
    | OSet ps => ofmap (fun _ => OODone) (optimal_set_params ps)
    | OGet => o <- oget ;; ret (OOParams (optimal_get_params o))
    end.

  Fixpoint orun (os : list oop) (s : optimal * Heap) : optimal * Heap :=
    match os with [] => s | o :: os' => orun os' (fst (ostep o s)) end.
End Optimal.
Arguments optimal : clear implicits.
Arguments oop : clear implicits.
Arguments oout : clear implicits.
