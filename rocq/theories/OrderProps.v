(** Composite kernels and the order of the members; equal composites (C115). *)
From Coq Require Import String Reals List Arith ZArith Bool Permutation Lia Lra.
Import ListNotations.
From Verif Require Import Prelude MatModel UtilsModel IndexModel KMModel SpecKM XReal OpsModel
  SpecLinAlg KernelsModel SpecKernels KMXModel SpecKMX SetModel SpecSet CompositeModel SpecComposite.
From Verif Require Import MatFacts OpsFacts KMXProps ContProps CompositeFacts CompositeProps.
Local Open Scope list_scope.
Local Open Scope nat_scope.

(*BEGIN PROP*)
(** A program has made a composite of the class [cls] over a KernelSet of [n] samples and done anything
    since; the set has members whose [full] are now the n x n matrices [Ks]. *)
Definition composite_of {E U} (C : cmpops xr) (numeric : list E -> bool) (cls : cclass) (n : nat) (Ks : list (arr xr))
    (s : cstate (E:=E) (U:=U)) : Prop :=
  exists k w0 c ops num ms ms0,
    s = crun C numeric ops (w0, c) /\ comp_new cls (Some k) w0 = Ok c /\ set_is w0 k (NSOne n) ms0 /\
    set_is (fst s) k num ms /\ fulls (fst s) ms Ks /\ Forall (is_square n) Ks.

(** [fit] with these weights succeeds in both programs and composite_KM is the same matrix from then on, until
    the next [fit]. *)
Definition same_composite {E U E' U'} (C : cmpops xr) (numeric : list E -> bool) (numeric' : list E' -> bool) (n : nat)
    (kw : option (ndarray xr)) (s : cstate (E:=E) (U:=U)) (kw' : option (ndarray xr)) (s' : cstate (E:=E') (U:=U')) : Prop :=
  exists f, fits C numeric kw s (is_matrix n f) /\ fits C numeric' kw' s' (is_matrix n f).
(*END PROP*)

Lemma xsum_perm : forall l l', Permutation l l' -> xsum l = xsum l'.
Proof.
  intros l l' H. induction H as [|x l l' H IH|x y l|l1 l2 l3 H1 IH1 H2 IH2]; cbn [xsum fold_right].
  - reflexivity.
  - change (xadd x (xsum l) = xadd x (xsum l')). rewrite IH. reflexivity.
  - rewrite !CompositeFacts.xadd_assoc. rewrite (xadd_comm y x). reflexivity.
  - rewrite IH1. exact IH2.
Qed.

Lemma xprod_perm : forall l l', Permutation l l' -> fold_right xmul (Fin 1) l = fold_right xmul (Fin 1) l'.
Proof.
  intros l l' H. induction H as [|x l l' H IH|x y l|l1 l2 l3 H1 IH1 H2 IH2]; cbn [fold_right].
  - reflexivity.
  - rewrite IH. reflexivity.
  - rewrite !xmul_assoc. rewrite (xmul_comm y x). reflexivity.
  - rewrite IH1. exact IH2.
Qed.

Lemma xdiv_xmul : forall a c, (0 < c)%R -> xdiv a (Fin c) = xmul (Fin (1 / c)) a.
Proof.
  intros a c Hc. assert (0 < 1 / c)%R by (apply Rdiv_lt_0_compat; lra).
  destruct a; cbn [xdiv xmul]; unfold signed_inf; try reflexivity.
  2-3: repeat (destruct (Rlt_dec _ _); try lra; try reflexivity).
  destruct (Req_EM_T c 0); [lra|]. f_equal. field. lra.
Qed.

Lemma xmul_xadd : forall c a b, (0 < c)%R -> xmul (Fin c) (xadd a b) = xadd (xmul (Fin c) a) (xmul (Fin c) b).
Proof.
  intros c a b Hc. assert (P : signed_inf c = PInf) by (unfold signed_inf; destruct (Rlt_dec 0 c); [reflexivity|lra]).
  assert (M : signed_inf (- c) = NInf) by (unfold signed_inf; destruct (Rlt_dec 0 (- c)); [lra|destruct (Rlt_dec (- c) 0); [reflexivity|lra]]).
  destruct a, b; cbn [xadd xmul]; rewrite ?P, ?M; try reflexivity. cbn [xadd]. f_equal. ring.
Qed.

Lemma sum_equal : forall c Ks i j, (0 < c)%R ->
  sum_entry (repeat c (length Ks)) Ks i j = xmul (Fin c) (xsum (map (fun K => xget (amat K) i j) Ks)).
Proof.
  intros c Ks i j Hc. unfold sum_entry. induction Ks as [|K Ks IH]; cbn [length repeat combine map xsum fold_right].
  - cbn [xmul]. f_equal. ring.
  - cbn [fst snd]. unfold xsum in IH. rewrite IH, xmul_xadd by assumption. reflexivity.
Qed.

Lemma len_fulls : forall {E U} (w : world E xr U) ms Ks, fulls w ms Ks -> length Ks = length ms.
Proof. intros E U w ms Ks H. unfold fulls in H. induction H; cbn; congruence. Qed.

Lemma of_sum : forall {E U} C numeric n Ks (s : cstate (E:=E) (U:=U)) a ws,
  composite_of C numeric NewSum n Ks s -> is_vector a ws -> length ws = length Ks ->
  fits C numeric (Some a) s (is_matrix n (sum_entry ws Ks)).
Proof.
  intros E U C numeric n Ks s a ws (k & w0 & c & ops & num & ms & ms0 & -> & H1 & H2 & H3 & H4 & H5) Ha Hl.
  apply (pf_C36_sum_weights C numeric k w0 c ops num ms n ms0 Ks a ws); try assumption. rewrite Hl. exact (len_fulls _ _ _ H4).
Qed.

Lemma of_sum_default : forall {E U} C numeric n Ks (s : cstate (E:=E) (U:=U)),
  composite_of C numeric NewSum n Ks s -> fits C numeric None s (is_matrix n (sum_entry (repeat 1%R (length Ks)) Ks)).
Proof.
  intros E U C numeric n Ks s (k & w0 & c & ops & num & ms & ms0 & -> & H1 & H2 & H3 & H4 & H5).
  rewrite (len_fulls _ _ _ H4). exact (pf_C36_sum_default C numeric k w0 c ops num ms n ms0 Ks H1 H2 H3 H4 H5).
Qed.

Lemma of_weighted : forall {E U} C numeric n Ks (s : cstate (E:=E) (U:=U)) kw a ws,
  composite_of C numeric (NewWeighted a) n Ks s -> is_vector a ws ->
  fits C numeric kw s (is_matrix n (sum_entry ws Ks)).
Proof.
  intros E U C numeric n Ks s kw a ws (k & w0 & c & ops & num & ms & ms0 & -> & H1 & H2 & H3 & H4 & H5) Ha.
  exact (pf_C36_weighted_sum C numeric k w0 c ops num ms n ms0 Ks kw a ws H1 Ha H2 H3 H4 H5).
Qed.

Lemma of_average : forall {E U} C numeric n Ks (s : cstate (E:=E) (U:=U)) kw,
  composite_of C numeric NewAverage n Ks s -> fits C numeric kw s (is_matrix n (mean_entry Ks)).
Proof.
  intros E U C numeric n Ks s kw (k & w0 & c & ops & num & ms & ms0 & -> & H1 & H2 & H3 & H4 & H5).
  exact (pf_C36_average C numeric k w0 c ops num ms n ms0 Ks kw H1 H2 H3 H4 H5).
Qed.

Lemma of_product : forall {E U} C numeric n Ks (s : cstate (E:=E) (U:=U)) kw,
  composite_of C numeric NewProduct n Ks s -> Forall (fun K => afmt K = Dense) Ks ->
  fits C numeric kw s (is_matrix n (prod_entry Ks)).
Proof.
  intros E U C numeric n Ks s kw (k & w0 & c & ops & num & ms & ms0 & -> & H1 & H2 & H3 & H4 & H5) Hd.
  exact (pf_C36_product_partial C numeric k w0 c ops num ms n ms0 Ks kw H1 H2 H3 H4 H5 Hd).
Qed.

Lemma same_of : forall {E U E' U'} C (numeric : list E -> bool) (numeric' : list E' -> bool) n (s : cstate (E:=E) (U:=U)) (s' : cstate (E:=E') (U:=U')) kw kw' f g, fits C numeric kw s (is_matrix n f) -> fits C numeric' kw' s' (is_matrix n g) ->
  (forall i j, g i j = f i j) -> same_composite C numeric numeric' n kw s kw' s'.
Proof.
  intros E U E' U' C numeric numeric' n s s' kw kw' f g H1 H2 H. exists f. split; [exact H1|]. apply (fits_ext C numeric' kw' s' n g f H2). intros i j _ _. apply H.
Qed.

Lemma sum_entry_perm : forall Ks Ks' ws ws' i j, Permutation (combine ws Ks) (combine ws' Ks') -> sum_entry ws' Ks' i j = sum_entry ws Ks i j.
Proof. intros Ks Ks' ws ws' i j H. unfold sum_entry. symmetry. apply xsum_perm, Permutation_map, H. Qed.

Lemma combine_repeat_map : forall {A} (l : list A), combine (repeat 1%R (length l)) l = map (fun K => (1%R, K)) l.
Proof. intros A l. induction l as [|x l IH]; [reflexivity|]. cbn. rewrite IH. reflexivity. Qed.

(** SumKernel: exchanging members together with their weights changes nothing; any entries (also NaN and
    infinite), any storage formats, any two programs. *)
Lemma pf_C115_sum : forall {E U E' U'} C (numeric : list E -> bool) (numeric' : list E' -> bool) n Ks Ks'
    (s : cstate (E:=E) (U:=U)) (s' : cstate (E:=E') (U:=U')) a ws a' ws',
  composite_of C numeric NewSum n Ks s -> composite_of C numeric' NewSum n Ks' s' ->
  is_vector a ws -> is_vector a' ws' -> length ws = length Ks -> length ws' = length Ks' ->
  Permutation (combine ws Ks) (combine ws' Ks') ->
  same_composite C numeric numeric' n (Some a) s (Some a') s'.
Proof.
  intros E U E' U' C numeric numeric' n Ks Ks' s s' a ws a' ws' H H' Ha Ha' Hl Hl' P.
  apply (same_of _ _ _ _ _ _ _ _ _ _ (of_sum C numeric n Ks s a ws H Ha Hl) (of_sum C numeric' n Ks' s' a' ws' H' Ha' Hl')).
  intros i j. apply sum_entry_perm, P.
Qed.

(** SumKernel without weights. *)
Lemma pf_C115_sum_default : forall {E U E' U'} C (numeric : list E -> bool) (numeric' : list E' -> bool) n Ks Ks'
    (s : cstate (E:=E) (U:=U)) (s' : cstate (E:=E') (U:=U')),
  composite_of C numeric NewSum n Ks s -> composite_of C numeric' NewSum n Ks' s' -> Permutation Ks Ks' ->
  same_composite C numeric numeric' n None s None s'.
Proof.
  intros E U E' U' C numeric numeric' n Ks Ks' s s' H H' P. apply (same_of _ _ _ _ _ _ _ _ _ _ (of_sum_default C numeric n Ks s H) (of_sum_default C numeric' n Ks' s' H')).
  intros i j. apply sum_entry_perm. rewrite !combine_repeat_map. apply Permutation_map, P.
Qed.

(** WeightedAverageKernel. *)
Lemma pf_C115_weighted : forall {E U E' U'} C (numeric : list E -> bool) (numeric' : list E' -> bool) n Ks Ks'
    (s : cstate (E:=E) (U:=U)) (s' : cstate (E:=E') (U:=U')) a ws a' ws' kw kw',
  composite_of C numeric (NewWeighted a) n Ks s -> composite_of C numeric' (NewWeighted a') n Ks' s' ->
  is_vector a ws -> is_vector a' ws' -> Permutation (combine ws Ks) (combine ws' Ks') ->
  same_composite C numeric numeric' n kw s kw' s'.
Proof.
  intros E U E' U' C numeric numeric' n Ks Ks' s s' a ws a' ws' kw kw' H H' Ha Ha' P.
  apply (same_of _ _ _ _ _ _ _ _ _ _ (of_weighted C numeric n Ks s kw a ws H Ha) (of_weighted C numeric' n Ks' s' kw' a' ws' H' Ha')).
  intros i j. apply sum_entry_perm, P.
Qed.

(** AverageKernel. *)
Lemma pf_C115_average : forall {E U E' U'} C (numeric : list E -> bool) (numeric' : list E' -> bool) n Ks Ks'
    (s : cstate (E:=E) (U:=U)) (s' : cstate (E:=E') (U:=U')) kw kw',
  composite_of C numeric NewAverage n Ks s -> composite_of C numeric' NewAverage n Ks' s' -> Permutation Ks Ks' ->
  same_composite C numeric numeric' n kw s kw' s'.
Proof.
  intros E U E' U' C numeric numeric' n Ks Ks' s s' kw kw' H H' P. apply (same_of _ _ _ _ _ _ _ _ _ _ (of_average C numeric n Ks s kw H) (of_average C numeric' n Ks' s' kw' H')).
  intros i j. unfold mean_entry. rewrite (Permutation_length P). f_equal. symmetry. apply xsum_perm, Permutation_map, P.
Qed.

(** ProductKernel, if the matrices are plain ndarrays (otherwise it is a matrix product, C36). *)
Lemma pf_C115_product : forall {E U E' U'} C (numeric : list E -> bool) (numeric' : list E' -> bool) n Ks Ks'
    (s : cstate (E:=E) (U:=U)) (s' : cstate (E:=E') (U:=U')) kw kw',
  composite_of C numeric NewProduct n Ks s -> composite_of C numeric' NewProduct n Ks' s' ->
  Forall (fun K => afmt K = Dense) Ks -> Permutation Ks Ks' ->
  same_composite C numeric numeric' n kw s kw' s'.
Proof.
  intros E U E' U' C numeric numeric' n Ks Ks' s s' kw kw' H H' D P.
  assert (D' : Forall (fun K => afmt K = Dense) Ks').
  { rewrite Forall_forall in *. intros K HK. apply D. exact (Permutation_in _ (Permutation_sym P) HK). }
  apply (same_of _ _ _ _ _ _ _ _ _ _ (of_product C numeric n Ks s kw H D) (of_product C numeric' n Ks' s' kw' H' D')).
  intros i j. unfold prod_entry. symmetry. apply xprod_perm, Permutation_map, P.
Qed.

(** WeightedAverageKernel is SumKernel with the same weights. *)
Lemma pf_C115_weighted_is_sum : forall {E U E' U'} C (numeric : list E -> bool) (numeric' : list E' -> bool) n Ks
    (s : cstate (E:=E) (U:=U)) (s' : cstate (E:=E') (U:=U')) a ws a' kw,
  composite_of C numeric (NewWeighted a) n Ks s -> composite_of C numeric' NewSum n Ks s' ->
  is_vector a ws -> is_vector a' ws -> length ws = length Ks ->
  same_composite C numeric numeric' n kw s (Some a') s'.
Proof.
  intros E U E' U' C numeric numeric' n Ks s s' a ws a' kw H H' Ha Ha' Hl.
  apply (same_of _ _ _ _ _ _ _ _ _ _ (of_weighted C numeric n Ks s kw a ws H Ha) (of_sum C numeric' n Ks s' a' ws H' Ha' Hl)). reflexivity.
Qed.

(** AverageKernel is SumKernel, and WeightedAverageKernel, with every weight one over the number of members. *)
Lemma pf_C115_average_is_sum : forall {E U E' U'} C (numeric : list E -> bool) (numeric' : list E' -> bool) n Ks
    (s : cstate (E:=E) (U:=U)) (s' : cstate (E:=E') (U:=U')) a kw cls kw', Ks <> [] ->
  composite_of C numeric NewAverage n Ks s -> composite_of C numeric' cls n Ks s' ->
  is_vector a (repeat (1 / INR (length Ks))%R (length Ks)) ->
  (cls = NewSum /\ kw' = Some a \/ cls = NewWeighted a) ->
  same_composite C numeric numeric' n kw s kw' s'.
Proof.
  intros E U E' U' C numeric numeric' n Ks s s' a kw cls kw' Hn H H' Ha Hc.
  assert (L : (0 < INR (length Ks))%R) by (apply lt_0_INR; destruct Ks; [congruence|cbn; lia]).
  assert (F : fits C numeric' kw' s' (is_matrix n (sum_entry (repeat (1 / INR (length Ks))%R (length Ks)) Ks))).
  { destruct Hc as [[-> ->]| ->].
    - apply of_sum; [exact H'|exact Ha|apply repeat_length].
    - exact (of_weighted C numeric' n Ks s' kw' a _ H' Ha). }
  apply (same_of _ _ _ _ _ _ _ _ _ _ (of_average C numeric n Ks s kw H) F).
  intros i j. rewrite sum_equal by (apply Rdiv_lt_0_compat; lra). unfold mean_entry. rewrite xdiv_xmul by exact L. reflexivity.
Qed.

(*BEGIN PROP*)
(** Two KernelMatrix objects attached to [[1], [2]], one with the linear kernel and one with a kernel that is
    always 3, and two KernelSets of them in different orders. *)
Definition three : kernel xr xr := mkKernel (fun _ _ _ => Ok (Fin 3)) true.
Definition w_order : world xr xr unit :=
  wrun xN xC numx
    [WNewKM lin false; WNewKM three false; WObj 0 (OpAttach x12 None); WObj 1 (OpAttach x12 None);
     WSetNew (KLIter [ARef 0; ARef 1]) None; WSetNew (KLIter [ARef 1; ARef 0]) None] w_empty.

(** The hypotheses of C115_product hold for the products over the two sets, and the matrices differ. *)
Example C115_example :
  let c k := mkComp CProduct k (NSOne 2) false None in
  exists K K', composite_of xC numx NewProduct 2 [K; K'] (w_order, c 0) /\
    composite_of xC numx NewProduct 2 [K'; K] (w_order, c 1) /\
    Forall (fun K => afmt K = Dense) [K; K'] /\ xget (amat K) 0 0 <> xget (amat K') 0 0.
Proof.
  cbv zeta. eexists. eexists. split; [|split; [|split]].
  - exists 0, w_order, (mkComp CProduct 0 (NSOne 2) false None), [], (NSOne 2), [0; 1], [0; 1].
    split; [reflexivity|]. split; [calc; reflexivity|]. split; [eexists; eexists; calc; reflexivity|].
    split; [eexists; eexists; calc; reflexivity|]. split.
    + constructor; [calc; reflexivity|]. constructor; [calc; reflexivity|]. constructor.
    + repeat constructor.
  - exists 1, w_order, (mkComp CProduct 1 (NSOne 2) false None), [], (NSOne 2), [1; 0], [1; 0].
    split; [reflexivity|]. split; [calc; reflexivity|]. split; [eexists; eexists; calc; reflexivity|].
    split; [eexists; eexists; calc; reflexivity|]. split.
    + constructor; [calc; reflexivity|]. constructor; [calc; reflexivity|]. constructor.
    + repeat constructor.
  - repeat constructor.
  - calc. intros H. injection H. lra.
Qed.
(*END PROP*)

(** ProductKernel does depend on the order if a member is held sparse. *)
Lemma pf_C115_product_refuted :
  exists (s s' : cstate (E:=xr) (U:=unit)) n Ks Ks' b b' i j,
    composite_of xC numx NewProduct n Ks s /\ composite_of xC numx NewProduct n Ks' s' /\ Permutation Ks Ks' /\
    snd (cstep xC numx (CFit None) s) = Ok CUnit /\ snd (cstep xC numx (CFit None) s') = Ok CUnit /\
    snd (cstep xC numx CGet (fst (cstep xC numx (CFit None) s))) = Ok (CMat b) /\
    snd (cstep xC numx CGet (fst (cstep xC numx (CFit None) s'))) = Ok (CMat b') /\
    i < n /\ j < n /\ xget (amat b) i j <> xget (amat b') i j.
Proof.
  set (w := wrun xN xC numx
    [WNewKM lin false; WNewKM lin false; WObj 0 (OpAttach x12 None); WObj 1 (OpAttach x12 None);
     WSetNew (KLIter [ARef 0; ARef 1]) None; WSetNew (KLIter [ARef 1; ARef 0]) None;
     WObj 0 (OpGetItem (IPair (ISlice None None None) (ISlice None None None)))] (@w_empty xr xr unit)).
  exists (w, mkComp CProduct 0 (NSOne 2) false None), (w, mkComp CProduct 1 (NSOne 2) false None), 2.
  eexists [_; _], [_; _]. eexists. eexists. exists 0, 0.
  split; [|split; [|split]].
  - exists 0, w, (mkComp CProduct 0 (NSOne 2) false None), [], (NSOne 2), [0; 1], [0; 1].
    split; [reflexivity|]. split; [calc; reflexivity|]. split; [eexists; eexists; calc; reflexivity|].
    split; [eexists; eexists; calc; reflexivity|]. split.
    + constructor; [calc; reflexivity|]. constructor; [calc; reflexivity|]. constructor.
    + repeat constructor.
  - exists 1, w, (mkComp CProduct 1 (NSOne 2) false None), [], (NSOne 2), [1; 0], [1; 0].
    split; [reflexivity|]. split; [calc; reflexivity|]. split; [eexists; eexists; calc; reflexivity|].
    split; [eexists; eexists; calc; reflexivity|]. split.
    + constructor; [calc; reflexivity|]. constructor; [calc; reflexivity|]. constructor.
    + repeat constructor.
  - apply perm_swap.
  - split; [calc; reflexivity|]. split; [calc; reflexivity|]. split; [calc; reflexivity|]. split; [calc; reflexivity|].
    split; [lia|]. split; [lia|].
    calc. repeat (destruct (Req_EM_T _ _); try (exfalso; lra)). intros H. injection H. lra.
Qed.
