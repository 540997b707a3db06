(** KernelMatrix over categorical data: C83. *)
From Coq Require Import String Reals List Arith ZArith Bool Lia Lra.
Import ListNotations.
From Verif Require Import Prelude MatModel UtilsModel IndexModel KMModel SpecKM XReal OpsModel
  SpecLinAlg KernelsModel SpecKernels KMXModel SetModel SpecSet CategModel SpecCateg.
From Verif Require Import MatFacts MFacts KMFacts KMInv KMHist KMTotal KMProps RSum OpsFacts OpsProps
  PSDFacts KernelFacts KernelProps KMXProps SetFacts2 SetProps.
Local Open Scope list_scope.
Local Open Scope nat_scope.

(** ** Samples of strings *)

Lemma csample_len : forall n d X, length (nd_data (csample n d X)) = n * d.
Proof.
  intros n d X. unfold csample. cbn [nd_data]. rewrite <- (seq_length n 0) at 2.
  generalize (seq 0 n). intros l. induction l as [|a l IH]; [reflexivity|].
  cbn [flat_map length]. rewrite app_length, IH, map_length, seq_length. lia.
Qed.

Lemma csample_row : forall n d X i, i < n ->
  row_of d (csample n d X) i = map (X i) (seq 0 d).
Proof.
  intros n d X i Hi. unfold row_of, csample. cbn [nd_data].
  assert (H : forall s n, i < n ->
    firstn d (skipn (i * d) (flat_map (fun i => map (X i) (seq 0 d)) (seq s n)))
    = map (X (s + i)) (seq 0 d)); [|apply (H 0 n Hi)].
  clear n Hi. induction i as [|i IH]; intros s n Hi; (destruct n as [|n]; [lia|]); cbn [seq flat_map].
  - cbn [Nat.mul skipn]. rewrite Nat.add_0_r.
    rewrite firstn_app, map_length, seq_length, Nat.sub_diag. cbn [firstn].
    rewrite app_nil_r, firstn_all2; [reflexivity|]. rewrite map_length, seq_length. lia.
  - cbn [Nat.mul]. rewrite skipn_app, map_length, seq_length.
    replace (d + i * d - d) with (i * d) by lia.
    rewrite (skipn_all2 (n := d + i * d) (map _ _)); [|rewrite map_length, seq_length; lia].
    cbn [app]. rewrite (IH (S s) n) by lia. now rewrite Nat.add_succ_r.
Qed.

Lemma csample_adm : forall n d X, admissible (csample n d X) None n n d.
Proof. intros. split; [exists []; split; [reflexivity|constructor]|reflexivity]. Qed.
Lemma csample_adm2 : forall n m d X Y, admissible (csample n d X) (Some (csample m d Y)) n m d.
Proof. intros. split; exists []; (split; [reflexivity|constructor]). Qed.

(** ** Matches *)

Lemma agreements_app : forall a b c e, length a = length c ->
  agreements (a ++ b) (c ++ e) = agreements a c + agreements b e.
Proof.
  induction a as [|x a IH]; intros b [|y c] e H; try discriminate; [reflexivity|].
  injection H as H. cbn [app agreements]. rewrite IH by exact H. lia.
Qed.

Lemma agreements_matches : forall d u v,
  agreements (map u (seq 0 d)) (map v (seq 0 d)) = matches d u v.
Proof.
  induction d as [|d IH]; intros u v; [reflexivity|].
  rewrite seq_S, !map_app, agreements_app by now rewrite !map_length.
  rewrite IH. cbn. destruct (string_dec (u d) (v d)); lia.
Qed.

Lemma matches_sym : forall d u v, matches d u v = matches d v u.
Proof.
  induction d as [|d IH]; intros u v; [reflexivity|]. cbn. rewrite IH.
  destruct (string_dec (u d) (v d)), (string_dec (v d) (u d)); congruence.
Qed.

Lemma matches_same : forall d u v, matches d u v <= d /\ (matches d u v = d <-> same_obs d u v).
Proof.
  induction d as [|d IH]; intros u v.
  - split; [reflexivity|]. split; [intros _ k Hk; lia|reflexivity].
  - destruct (IH u v) as [Hle Hiff]. cbn [matches]. destruct (string_dec (u d) (v d)) as [He|Hne].
    + split; [lia|]. split.
      * intros H k Hk. destruct (Nat.eq_dec k d) as [->|]; [exact He|]. apply Hiff; lia.
      * intros H. assert (matches d u v = d); [|lia]. apply Hiff. intros k Hk. apply H. lia.
    + split; [lia|]. split; [lia|]. intros H. exfalso. apply Hne, H. lia.
Qed.

Lemma matches_self : forall d u, matches d u u = d.
Proof. intros d u. apply matches_same. intros k _. reflexivity. Qed.

Lemma matches_sum : forall d u v,
  INR (matches d u v) = rsum d (fun k => if string_dec (u k) (v k) then 1%R else 0%R).
Proof.
  intros d u v. rewrite <- agreements_matches, (agreements_sum d) by now rewrite map_length, seq_length.
  apply rsum_ext. intros k Hk.
  rewrite !(nth_indep _ EmptyString (u 0)) by (rewrite map_length, seq_length; exact Hk).
  rewrite (map_nth u), (nth_indep (map v _) (u 0) (v 0)) by (rewrite map_length, seq_length; exact Hk).
  rewrite (map_nth v), seq_nth by exact Hk. reflexivity.
Qed.

Lemma matches_psd : forall n d X, psd n (fun i j => INR (matches d (X i) (X j))).
Proof.
  intros n d X.
  apply (psd_ext n (fun i j => rsum d (fun k => if string_dec (X i k) (X j k) then 1%R else 0%R))).
  - intros i j _ _. symmetry. apply matches_sum.
  - apply (psd_rsum n d (fun k i j => if string_dec (X i k) (X j k) then 1%R else 0%R)).
    intros k _. apply (psd_same string_dec n (fun i => X i k)).
Qed.

Lemma fraction_psd : forall n d X, psd n (fun i j => (INR (matches d (X i) (X j)) / INR d)%R).
Proof.
  intros n [|d] X.
  - apply (psd_ext n (fun i j => (0 * INR (matches 0 (X i) (X j)))%R)).
    + intros i j _ _. cbn. unfold Rdiv. ring.
    + apply psd_scal; [lra|]. apply matches_psd.
  - apply (psd_ext n (fun i j => (/ INR (S d) * INR (matches (S d) (X i) (X j)))%R)).
    + intros i j _ _. unfold Rdiv. ring.
    + apply psd_scal; [|apply matches_psd]. left. apply Rinv_0_lt_compat, lt_0_INR. lia.
Qed.

(** ** The kernel on rows *)

(** The kernel as a function of rows of length d. *)
Definition catval (perc : bool) (d : nat) (u v : list string) : xr :=
  Fin (if perc then INR (agreements u v) / INR d else INR (agreements u v))%R.

Lemma categ_rows : forall perc d t u v, (perc = true -> 1 <= d) -> length u = d -> length v = d ->
  kf (categorical perc) t u v = Ok (catval perc d u v).
Proof.
  intros perc d t u v Hd Hu Hv. cbn [categorical kf]. destruct perc.
  - change (match_call String.eqb true DStr (vec u) DStr (vec v) = Ok (catval true d u v)).
    rewrite pf_C33_fraction by (auto; try congruence; rewrite Hu; auto). unfold catval. now rewrite Hu.
  - change (match_call String.eqb false DStr (vec u) DStr (vec v) = Ok (catval false d u v)).
    now rewrite pf_C33_count by congruence.
Qed.

Lemma categ_total : forall perc x y n m d, (perc = true -> 1 <= d) ->
  length (nd_data x) = n * d -> match y with None => n = m | Some y' => length (nd_data y') = m * d end ->
  never_raises (categorical perc) (catval perc d) x y n m d.
Proof.
  intros perc x y n m d Hd Hx Hy t u v Hu Hv.
  assert (L : forall u, is_row x y n m d u -> length u = d).
  { clear - Hx Hy. intros u (i & [[Hi ->]|[Hi ->]]); [now apply (row_length d n)|].
    destruct y; [now apply (row_length d m)|]. apply (row_length d n); [exact Hx|]. now rewrite Hy. }
  apply categ_rows; auto.
Qed.

Lemma catval_rows : forall perc n m d X Y i j, i < n -> j < m ->
  catval perc d (row_of d (csample n d X) i) (row_of d (csample m d Y) j)
  = Fin (match_similarity perc d (X i) (Y j)).
Proof.
  intros perc n m d X Y i j Hi Hj. unfold catval, match_similarity.
  now rewrite !csample_row, agreements_matches by assumption.
Qed.

Lemma categ_matrix : forall perc n d X,
  kernel_matrix (catval perc d) n n d (csample n d X) None
  = rmat n n (fun i j => match_similarity perc d (X i) (X j)).
Proof.
  intros perc n d X. apply tabulate_ext. intros i j Hi Hj. unfold entry. destruct (i <=? j).
  - now apply catval_rows.
  - rewrite catval_rows by assumption. f_equal. unfold match_similarity. now rewrite matches_sym.
Qed.

Lemma categ_matrix2 : forall perc n m d X Y,
  kernel_matrix (catval perc d) n m d (csample n d X) (Some (csample m d Y))
  = rmat n m (fun i j => match_similarity perc d (X i) (Y j)).
Proof.
  intros perc n m d X Y. apply tabulate_ext. intros i j Hi Hj. unfold entry. now apply catval_rows.
Qed.

Lemma self_similarity : forall perc d u, 1 <= d ->
  match_similarity perc d u u = (if perc then 1 else INR d)%R /\ (1 <= match_similarity perc d u u)%R.
Proof.
  intros perc d u Hd. unfold match_similarity. rewrite matches_self.
  assert (H1 : (1 <= INR d)%R) by (apply (le_INR 1) in Hd; exact Hd).
  destruct perc; [|auto]. split; [field; lra|]. replace (INR d / INR d)%R with 1%R by (field; lra). lra.
Qed.

(** The similarity, divided by the geometric mean of the self-similarities, is the fraction. *)
Lemma normalised_similarity : forall perc d u v, 1 <= d ->
  (match_similarity perc d u v / sqrt (match_similarity perc d u u * match_similarity perc d v v)
   = INR (matches d u v) / INR d)%R.
Proof.
  intros perc d u v Hd. destruct (self_similarity perc d u Hd) as [-> _], (self_similarity perc d v Hd) as [-> _].
  assert (H1 : (1 <= INR d)%R) by (apply (le_INR 1) in Hd; exact Hd).
  unfold match_similarity. destruct perc.
  - rewrite Rmult_1_l, sqrt_1. field. lra.
  - rewrite sqrt_square by lra. reflexivity.
Qed.

(** ** C83 *)

(** C83, values: a categorical KernelMatrix holds the number of features in which two observations
    agree, or the fraction of them, for any strings: [full] after any history without the two sparse
    accesses (C04), one or two samples, also for samples without observations. *)
Lemma pf_C83_full :
  forall {U} perc (pre post : list (op string U)) n d X,
    (perc = true -> 1 <= d) -> no_attach post -> no_full_sparse post -> no_whole_index n n post ->
    outcome xN OpFull (after xN (categorical perc) false pre (csample n d X) None post)
    = Ok (OArr (mkArr Dense (rmat n n (fun i j => match_similarity perc d (X i) (X j))))).
Proof.
  intros U perc pre post n d X Hd Hno Hfs Hwi.
  rewrite (pf_C04_full_partial xN (categorical perc) (catval perc d) pre post (csample n d X) None n n d
             (categ_total perc _ None n n d Hd (csample_len n d X) eq_refl) eq_refl (csample_adm n d X) Hno Hfs Hwi).
  now rewrite categ_matrix.
Qed.

(** C83, values for two samples. *)
Lemma pf_C83_two_samples :
  forall {U} perc (pre post : list (op string U)) n m d X Y,
    (perc = true -> 1 <= d) -> no_attach post -> no_full_sparse post -> no_whole_index n m post ->
    outcome xN OpFull (after xN (categorical perc) false pre (csample n d X) (Some (csample m d Y)) post)
    = Ok (OArr (mkArr Dense (rmat n m (fun i j => match_similarity perc d (X i) (Y j))))).
Proof.
  intros U perc pre post n m d X Y Hd Hno Hfs Hwi.
  rewrite (pf_C04_full_partial xN (categorical perc) (catval perc d) pre post (csample n d X) (Some (csample m d Y)) n m d
             (categ_total perc _ (Some _) n m d Hd (csample_len n d X) (csample_len m d Y)) eq_refl (csample_adm2 n m d X Y) Hno Hfs Hwi).
  now rewrite categ_matrix2.
Qed.

(** C83: this matrix is positive semidefinite; the entries lie between 0 and the common value of the
    diagonal (d or 1), which is attained exactly by observations that agree in every feature. *)
Lemma pf_C83_psd : forall perc n d (X : nat -> nat -> string), 1 <= d ->
  psd n (fun i j => match_similarity perc d (X i) (X j)) /\
  forall u v, (0 <= match_similarity perc d u v <= if perc then 1 else INR d)%R /\
    (match_similarity perc d u v = (if perc then 1 else INR d)%R <-> same_obs d u v).
Proof.
  intros perc n d X Hd. split.
  - unfold match_similarity. destruct perc; [apply fraction_psd|apply matches_psd].
  - intros u v. destruct (matches_same d u v) as [Hle Hiff].
    assert (H1 : (1 <= INR d)%R) by (apply (le_INR 1) in Hd; exact Hd).
    apply le_INR in Hle. assert (H0 := pos_INR (matches d u v)). unfold match_similarity. destruct perc.
    + assert (Hi : (0 < / INR d)%R) by (apply Rinv_0_lt_compat; lra). split.
      * split; [unfold Rdiv; apply Rmult_le_pos; lra|].
        apply (Rmult_le_reg_r (INR d)); [lra|]. unfold Rdiv. rewrite Rmult_assoc, Rinv_l by lra. lra.
      * rewrite <- Hiff. split.
        -- intros E. apply INR_eq. apply (f_equal (fun r => r * INR d)%R) in E. unfold Rdiv in E.
           rewrite Rmult_assoc, Rinv_l in E by lra. lra.
        -- intros ->. field. lra.
    + split; [lra|]. rewrite <- Hiff. split; [apply INR_eq|intros ->; reflexivity].
Qed.

(** C83, normalised, one sample: whether the kernel counts matches or returns the fraction, [full],
    [full_sparse] and [normed_km] of a normalised matrix are the fraction of matching features, after
    every history. *)
Lemma pf_C83_normalised :
  forall {U} perc (pre post : list (op string U)) n d X o, 1 <= d -> no_attach post ->
    (o = OpFull \/ o = OpFullSparse \/ o = OpNormedKM) ->
    outcome xN o (after xN (categorical perc) true pre (csample n d X) None post)
    = Ok (OArr (mkArr Dense (rmat n n (fun i j => (INR (matches d (X i) (X j)) / INR d)%R)))).
Proof.
  intros U perc pre post n d X o Hd Hno Ho.
  rewrite (pf_C03_value (categorical perc) (catval perc d) pre post (csample n d X) n d o
             (fun i j => match_similarity perc d (X i) (X j))
             (categ_total perc _ None n n d (fun _ => Hd) (csample_len n d X) eq_refl)
             eq_refl (csample_adm n d X) Hno Ho (categ_matrix perc n d X)).
  - do 3 f_equal. apply rmat_ext. intros i j _ _. now apply normalised_similarity.
  - intros i _. destruct (self_similarity perc d (X i) Hd) as [_ H]. lra.
Qed.

(** C83, normalised, two samples: the same fractions. *)
Lemma pf_C83_normalised_two :
  forall {U} perc (pre post : list (op string U)) n m d X Y o, 1 <= d -> no_attach post ->
    (o = OpFull \/ o = OpFullSparse \/ o = OpNormedKM) ->
    outcome xN o (after xN (categorical perc) true pre (csample n d X) (Some (csample m d Y)) post)
    = Ok (OArr (mkArr Dense (rmat n m (fun i j => (INR (matches d (X i) (Y j)) / INR d)%R)))).
Proof.
  intros U perc pre post n m d X Y o Hd Hno Ho.
  rewrite (pf_C03_two_samples_partial (categorical perc) (catval perc d) pre post (csample n d X) (csample m d Y) n m d o
             (categ_total perc _ (Some _) n m d (fun _ => Hd) (csample_len n d X) (csample_len m d Y))
             eq_refl (csample_adm2 n m d X Y) Hno Ho).
  - rewrite categ_matrix2.
    rewrite (map_ext_in _ (fun i => Fin (match_similarity perc d (X i) (X i))) (seq 0 n)).
    2:{ intros i Hi. apply in_seq in Hi. apply catval_rows; lia. }
    rewrite (map_ext_in _ (fun i => Fin (match_similarity perc d (Y i) (Y i))) (seq 0 m)).
    2:{ intros i Hi. apply in_seq in Hi. apply catval_rows; lia. }
    rewrite (pf_C21_entries "cosine" Dense n m (fun i j => match_similarity perc d (X i) (Y j))
              (fun i => match_similarity perc d (X i) (X i)) (fun j => match_similarity perc d (Y j) (Y j))).
    + cbn [res_map]. do 3 f_equal. apply rmat_ext. intros i j _ _. now apply normalised_similarity.
    + reflexivity.
    + discriminate.
    + intros i _. destruct (self_similarity perc d (X i) Hd) as [_ H]. lra.
    + intros i _. destruct (self_similarity perc d (Y i) Hd) as [_ H]. lra.
  - intros i Hi. rewrite catval_rows by assumption. destruct (self_similarity perc d (X i) Hd) as [_ H]. lra.
Qed.

(** C83: without features there is nothing to normalise by: the count is 0 everywhere and a
    normalised matrix of a non-empty sample raises KMNormError, after every history. *)
Lemma pf_C83_no_features :
  forall {U} (pre post : list (op string U)) n X o, 1 <= n -> no_attach post ->
    (o = OpFull \/ o = OpFullSparse \/ o = OpNormedKM) ->
    outcome xN o (after xN (categorical false) true pre (csample n 0 X) None post) = Raise KMNormError.
Proof.
  intros U pre post n X o Hn Hno Ho.
  apply (pf_C03_error (categorical false) (catval false 0) pre post (csample n 0 X) n 0 o 0 0%R).
  - apply categ_total; [discriminate| |reflexivity]. apply csample_len.
  - reflexivity.
  - apply csample_adm.
  - exact Hno.
  - exact Ho.
  - exact Hn.
  - rewrite catval_rows by exact Hn. reflexivity.
  - rewrite Rabs_R0. lra.
Qed.

(** C83 is false for a KernelSet: KernelSet.attach_to demands numbers. On a sample of strings that
    do not all denote numbers it raises ValueError and leaves every object as it was, whichever
    kernels the set holds, although each of its members accepts the sample. *)
Lemma pf_C83_set_refused :
  forall {U} N C numeric (w : world string xr U) k num ms n d X attr,
    set_is w k num ms -> numeric (nd_data (csample n d X)) = false ->
    wstep N C numeric (WAttach k (csample n d X) attr) w = (w, Raise ValueError) /\
    forall perc nrm (pre : list (op string U)),
      outcome N (OpAttach (csample n d X) None) (run N pre (km_new (categorical perc) nrm [])) = Ok OUnit.
Proof.
  intros U N C numeric w k num ms n d X attr Hs Hnum. split.
  - destruct (set_is_eq w k num ms Hs) as (s & Hk & _ & _). cbn [wstep]. unfold wfmap, bind.
    rewrite (set_attach_bad numeric k (csample n d X) attr w s Hk); [reflexivity|].
    intros n0 [_ H]. congruence.
  - intros perc nrm pre. reflexivity.
Qed.

(*BEGIN PROP*)
(** Three observations with two categorical features. *)
Definition pets (i k : nat) : string :=
  nth k (nth i [["cat"; "red"]; ["dog"; "red"]; ["cat"; "blue"]]%string []) EmptyString.

(** C83 on concrete data: the sample in row-major order, the histories allowed (reads, indexing,
    centering, normalisation, attributes), and a value of the resulting matrix. *)
Example C83_example :
  nd_data (csample 3 2 pets) = ["cat"; "red"; "dog"; "red"; "cat"; "blue"]%string
  /\ match_similarity true 2 (pets 0) (pets 1) = (1 / 2)%R
  /\ match_similarity false 2 (pets 1) (pets 2) = 0%R
  /\ no_attach ([OpFull; OpCenter; OpNormalize "cosine"; OpGetAttr "x"] : list (op string unit))
  /\ no_full_sparse ([OpFull; OpCenter; OpFrobNorm] : list (op string unit))
  /\ outcome xN OpFull (after xN (categorical false) true ([] : list (op string unit)) (csample 3 2 pets) None
       [OpFullSparse; OpCenter; OpNormalize "cosine"])
     = Ok (OArr (mkArr Dense (rmat 3 3 (fun i j => (INR (matches 2 (pets i) (pets j)) / INR 2)%R)))).
Proof.
  split; [reflexivity|]. split; [reflexivity|]. split; [reflexivity|]. split; [reflexivity|].
  split; [intros [H|[H|[H|[]]]]; discriminate|]. apply pf_C83_normalised; [lia|reflexivity|auto].
Qed.

(** A KernelSet of categorical kernel matrices, as C83_set_refused requires. *)
Example C83_set_example : forall N C (numeric : list string -> bool),
  set_is (wrun N C numeric ([WNewKM (categorical true) false; WNewKM (categorical false) false;
            WSetNew (KLIter [ARef 0; ARef 1]) None] : list (wop string xr unit)) w_empty) 0 NSNone [0; 1].
Proof. intros. eexists. eexists. reflexivity. Qed.
(*END PROP*)
