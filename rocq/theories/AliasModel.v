(** What the caller can do to a KernelMatrix without calling it: arrays go in and come out by
    reference, so the caller can write into them.

    Going in: [attach_to] stores [ensure_ndarray_2D(sample)] (base.py:251, 255, 266), which for
    an ndarray is the array itself or a view of it ([np.squeeze], utils.py:41-57); no copy is
    made. Coming out: [full] returns [self._full_km] or [self._normed_km] (base.py:416-420),
    [full_sparse] the same or the result of [_populate_fully] (base.py:428-433), whole-matrix
    indexing [self._full_km] (base.py:626, 760), [normed_km] [self._normed_km] (base.py:560),
    [centered] [self._centered] (base.py:520) and [attributes] [self._attr] (base.py:340).

    Simplifications: only writes that keep the shape of an array are modelled (numpy and
    scipy.sparse do not let a view change shape in place otherwise); a write outside the
    array raises IndexError in the caller's code and changes nothing. [WSample] writes into the
    array passed as the first sample; with one sample that array is also [self._sample_two].
    An array passed as both samples is written by [WSample] followed by [WSampleTwo]. Samples
    must be ndarrays ([sample_one.dtype], base.py:251), so no conversion copies them. *)
From Coq Require Import String List Arith ZArith Bool.
Import ListNotations.
From Verif Require Import Prelude MatModel UtilsModel IndexModel KMModel.

Section Alias.
  Context {E V U : Type}.
  Variable N : numops V.

  (** One action of the caller: a call of a public operation, or a write. *)
  Inductive cact : Type :=
  | Call (o : op E U)
  | WFull (i j : nat) (v : V)           (* into the array held as _full_km *)
  | WNormed (i j : nat) (v : V)         (* into the array held as _normed_km *)
  | WCentered (i j : nat) (v : V)       (* into the array held as _centered *)
  | WAttrs (name : string) (u : U)      (* into the dict held as _attr *)
  | WSample (q : nat) (e : E)           (* into the first sample, at flat position q *)
  | WSampleTwo (q : nat) (e : E).       (* into the second of two samples *)

  (** [a[i, j] = v] for an array held by the object. *)
  Definition write_arr (i j : nat) (v : V) (a : option (arr V)) : option (arr V) :=
    match a with
    | None => None
    | Some b => Some (if (i <? mr (amat b)) && (j <? mc (amat b))
                      then mkArr (afmt b) (mset (amat b) i j v) else b)
    end.

  (** [x.flat[q] = e]. *)
  Definition write_nd (q : nat) (e : E) (x : ndarray E) : ndarray E :=
    mkNd (nd_shape x) (list_upd (nd_data x) q e).

  Definition write_sample_one (q : nat) (e : E) (s : km E V U) : km E V U :=
    match k_sample s with Some x => set_sample (write_nd q e x) s | None => s end.
  Definition write_sample_two (q : nat) (e : E) (s : km E V U) : km E V U :=
    match k_sample_two s with Some x => set_sample_two (write_nd q e x) s | None => s end.

  Definition cstep (a : cact) (s : km E V U) : km E V U :=
    match a with
    | Call o => fst (step N o s)
    | WFull i j v => set_full (write_arr i j v (k_full s)) s
    | WNormed i j v => set_normed (write_arr i j v (k_normed s)) s
    | WCentered i j v => set_centered (write_arr i j v (k_centered s)) s
    | WAttrs n u => set_attrs (dict_set (k_attr s) n u) s
    | WSample q e =>
        match k_two s with
        | Some false => write_sample_two q e (write_sample_one q e s)
        | _ => write_sample_one q e s
        end
    | WSampleTwo q e =>
        match k_two s with Some true => write_sample_two q e s | _ => s end
    end.

  Fixpoint crun (acts : list cact) (s : km E V U) : km E V U :=
    match acts with
    | [] => s
    | a :: acts' => crun acts' (cstep a s)
    end.

  (** Outcomes of the calls among the actions. *)
  Fixpoint ctrace (acts : list cact) (s : km E V U) : list (res (out V U)) :=
    match acts with
    | [] => []
    | Call o :: acts' => snd (step N o s) :: ctrace acts' (fst (step N o s))
    | a :: acts' => ctrace acts' (cstep a s)
    end.
End Alias.
Arguments cact : clear implicits.
