(** Kernels whose results are not doubles.
    Generated by tools/split_props.py from ConvProps.v: statements only, each closed by [exact]. *)
From Coq Require Import String List Arith ZArith Bool Lia Floats.SpecFloat.
Import ListNotations.
From Verif Require Import Prelude MatModel MatFacts UtilsModel IndexModel KMModel SpecKM MFacts KMFacts KMIndex KMInv
  KMGet KMHist FloatModel FloatProps FloatRound FloatNormProps SpecFloatVal FloatAny FloatDiv ConvModel SpecConv ConvFacts ConvSim.
Local Open Scope list_scope.
From Verif Require Import ConvProps.
Local Open Scope list_scope.

(** What is returned for a kernel whose results are converted when stored is what is returned for a kernel that
    converts its results itself: after any history, for every operation but [diagonal]. *)
Theorem C109_same : forall {E R V U} (N : numops V) (conv : R -> res V) norm2 kern (k : list E -> list E -> R)
    formats nrm (pre post : list (op E U)) x y n m d o,
  admissible x y n m d -> raw_returns kern k x y n m d ->
  (forall y', y = Some y' -> normalises_alike N conv norm2 k x y' n m d) ->
  no_attach post -> is_attach o = false -> o <> OpDiagonal ->
  raw_outcome N conv norm2 o (raw_after N conv norm2 kern formats nrm pre x y post) =
  res_map QOut (outcome N o (after N (converted conv k formats) nrm [] x y post)).
Proof. exact (@pf_C109_same). Qed.
Print Assumptions C109_same.

(** [diagonal] returns what the kernel returned, unconverted, whatever was done before and whether or not it
    can be converted; it refuses two samples. *)
Theorem C109_diagonal : forall {E R V U} (N : numops V) (conv : R -> res V) norm2 kern (k : list E -> list E -> R)
    formats nrm (pre post : list (op E U)) x y n m d,
  admissible x y n m d -> raw_returns kern k x y n m d ->
  (forall y', y = Some y' -> normalises_alike N conv norm2 k x y' n m d) -> no_attach post ->
  raw_outcome N conv norm2 OpDiagonal (raw_after N conv norm2 kern formats nrm pre x y post) =
  match y with
  | None => Ok (QDiag (map (fun i => k (row_of d x i) (row_of d x i)) (seq 0 n)))
  | Some _ => Raise KMAccessError
  end.
Proof. exact (@pf_C109_diagonal). Qed.
Print Assumptions C109_diagonal.

(** An index that selects a proper part: the converted values if all of them can be converted; otherwise the
    exception of the first one, row by row, that cannot. *)
Theorem C109_parts : forall {E R V U} (N : numops V) (conv : R -> res V) norm2 kern (k : list E -> list E -> R)
    formats nrm (pre post : list (op E U)) x y n m d ix rows cols,
  admissible x y n m d -> raw_returns kern k x y n m d ->
  (forall y', y = Some y' -> normalises_alike N conv norm2 k x y' n m d) -> no_attach post ->
  valid n m ix -> selection2 n m ix rows cols -> ~ whole n m rows cols ->
  let r := raw_outcome N conv norm2 (OpGetItem ix) (raw_after N conv norm2 kern formats nrm pre x y post) in
  (forall v, (forall i j, In i rows -> In j cols -> conv (entry k d x y i j) = Ok (v i j)) ->
     r = Ok (QOut (OArr (mkArr Dense (submatrix v rows cols))))) /\
  (forall earlier i j later e, product rows cols = earlier ++ (i, j) :: later ->
     (forall p, In p earlier -> exists v, conv (entry k d x y (fst p) (snd p)) = Ok v) ->
     conv (entry k d x y i j) = Raise e -> r = Raise e).
Proof. exact (@pf_C109_parts). Qed.
Print Assumptions C109_parts.

(** A failed conversion costs no calls: if the kernel itself does not raise, it is called at most once for a
    pair of samples as long as nothing is attached anew, whatever is asked for and whatever cannot be
    converted. *)
Theorem C109_once : forall {E R V U} (N : numops V) (conv : R -> res V) norm2
    (kern : nat -> list E -> list E -> res R) formats nrm (pre post : list (op E U)) x y n m d,
  admissible x y n m d -> (forall t u v, exists r, kern t u v = Ok r) -> no_attach post ->
  NoDup (raw_calls (length (g_calls (q_base (run_raw N conv norm2 pre (new_raw kern formats nrm [] 0)))))
                   (raw_after N conv norm2 kern formats nrm pre x y post)).
Proof. exact (@pf_C109_once). Qed.
Print Assumptions C109_once.

(** Python ints below 2^53 in size are converted exactly, those from 2^1024 on raise OverflowError. *)
Theorem C109_int : forall z,
  ((Z.abs z < 2 ^ 53)%Z -> exists f, int_to_f64 z = Ok f /\ fval f = Rdefinitions.IZR z) /\
  ((2 ^ 1024 <= Z.abs z)%Z -> int_to_f64 z = Raise OverflowErr).
Proof. exact (@pf_C109_int). Qed.
Print Assumptions C109_int.

(** Not so: that [diagonal] has the diagonal of the matrix. It has 2^53 + 1 where the entry is 2^53. *)
Theorem C109_diagonal_refuted : forall (N : numops f64) norm2, exists (x : ndarray Z) k,
  admissible x None 2 2 1 /\
  raw_outcome N int_to_f64 norm2 OpDiagonal
    (raw_after (U := unit) N int_to_f64 norm2 (fun _ u v => Ok (k u v)) false false [] x None []) =
    Ok (QDiag [2 ^ 53 + 1; 1]%Z) /\
  exists f, raw_outcome N int_to_f64 norm2 (OpGetItem (IPair (IInt 0) (IInt 0)))
    (raw_after (U := unit) N int_to_f64 norm2 (fun _ u v => Ok (k u v)) false false [] x None []) =
    Ok (QOut (OArr (mkArr Dense (mkMat 1 1 [[f]])))) /\ f = fint (2 ^ 53).
Proof. exact (@pf_C109_diagonal_refuted). Qed.
Print Assumptions C109_diagonal_refuted.

(** Example: rows (2^1024) and (1), the kernel the smaller of two ints, which returns ints. The matrix cannot be
    had, nor the entry that is too large; the other entries and the diagonal can; the kernel is called three times
    in all. *)
Theorem C109_example : forall (N : numops f64) norm2,
  let x := mkNd [2; 1] [2 ^ 1024; 1]%Z in
  let kern := fun (_ : nat) u v => Ok (Z.min (hd 0%Z u) (hd 0%Z v)) in
  let s post := raw_after (U := unit) N int_to_f64 norm2 kern false false [] x None post in
  let at_ i j := OpGetItem (IPair (IInt i) (IInt j)) in
  let history := [OpFull; at_ 0%Z 0%Z; OpDiagonal; at_ 1%Z 0%Z; at_ 0%Z 0%Z] in
  admissible x None 2 2 1 /\ no_attach history /\
  raw_outcome N int_to_f64 norm2 OpFull (s []) = Raise RuntimeError /\
  raw_outcome N int_to_f64 norm2 (at_ 0%Z 0%Z) (s [OpFull]) = Raise OverflowErr /\
  raw_outcome N int_to_f64 norm2 (at_ 1%Z 0%Z) (s [OpFull]) = Ok (QOut (OArr (mkArr Dense (mkMat 1 1 [[fint 1]])))) /\
  raw_outcome N int_to_f64 norm2 OpDiagonal (s [OpFull]) = Ok (QDiag [2 ^ 1024; 1]%Z) /\
  raw_calls 0 (s history) = [(0, 1); (1, 1); (0, 0)].
Proof. exact (@pf_C109_example). Qed.
Print Assumptions C109_example.

(** A normalisation that converts the diagonals first is one of those meant by [normalises_alike]. *)
Theorem C109_normalisation : forall {E R V} (N : numops V) (conv : R -> res V) (k : list E -> list E -> R) x y n m d,
  (forall i, i < n -> exists v, conv (k (row_of d x i) (row_of d x i)) = Ok v) ->
  (forall j, j < m -> exists v, conv (k (row_of d y j) (row_of d y j)) = Ok v) ->
  normalises_alike N conv (fun a dx dy => rbind (rmap conv dx) (fun lx => rbind (rmap conv dy) (fun ly => op_normalize2 N a lx ly)))
    k x y n m d.
Proof. exact (@pf_C109_normalisation). Qed.
Print Assumptions C109_normalisation.
