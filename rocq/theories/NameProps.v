(** What the text of kernels, kernel matrices and kernel sets tells: property C99. *)
From Coq Require Import String Ascii List Arith ZArith Bool Lia DecimalString Decimal DecimalFacts DecimalNat DecimalZ.
Import ListNotations.
From Verif Require Import Prelude MatModel UtilsModel IndexModel KMModel SpecKM CallableModel PrintModel NameModel.
From Verif Require Import MatFacts MFacts KMFacts KMInv KMHist ToyModel PrintProps.
Local Open Scope string_scope.
Local Open Scope list_scope.
Local Open Scope nat_scope.

(*BEGIN PROP*)
(** The character [c] does not occur in [s]. *)
Fixpoint free_of (c : ascii) (s : string) : Prop :=
  match s with EmptyString => True | String d s' => d <> c /\ free_of c s' end.

(** How parameters are shown: different parameters differently, without commas, spaces or line breaks (true of
    Python's int and float). *)
Definition readable {P} (show : P -> string) : Prop :=
  (forall a b, show a = show b -> a = b) /\
  forall a, free_of "," (show a) /\ free_of " " (show a) /\ free_of (ascii_of_nat 10) (show a).

(** The same kernel with the default skip_input_checks=False: class and parameters only. *)
Definition checked {P} (k : bkernel P) : bkernel P :=
  match k with
  | OHadamard a _ => OHadamard a false
  | OPoly d g b _ => OPoly d g b false
  | OGaussian s _ => OGaussian s false
  | OLaplacian g _ => OLaplacian g false
  | OChi2 g _ => OChi2 g false
  | OSigmoid g o _ => OSigmoid g o false
  | OLinear _ => OLinear false
  | OMatch p _ => OMatch p false
  end.

(** str of an int. *)
Definition show_int (z : Z) : string := NilZero.string_of_int (Z.to_int z).
(*END PROP*)

Lemma app_cancel_l : forall a b c, (a ++ b = a ++ c)%string -> b = c.
Proof. induction a as [|x a IH]; intros b c H; [exact H|]. injection H as H. now apply IH. Qed.

Lemma app_assoc_s : forall a b c, ((a ++ b) ++ c = a ++ (b ++ c))%string.
Proof. induction a as [|x a IH]; intros b c; [reflexivity|]. cbn. now rewrite IH. Qed.

Lemma app_nil_s : forall a, (a ++ "" = a)%string.
Proof. induction a as [|x a IH]; [reflexivity|]. cbn. now rewrite IH. Qed.

Lemma split_char : forall c a b ra rb, free_of c a -> free_of c b ->
  (a ++ String c ra = b ++ String c rb)%string -> a = b /\ ra = rb.
Proof.
  intros c. induction a as [|x a IH]; intros [|y b] ra rb Fa Fb H; cbn in *.
  - now injection H as ->.
  - injection H as -> _. now destruct Fb as [N _].
  - injection H as -> _. now destruct Fa as [N _].
  - injection H as -> H. destruct Fa as [_ Fa], Fb as [_ Fb].
    destruct (IH b ra rb Fa Fb H) as [-> ->]. now split.
Qed.

Lemma len_app_s : forall a b, String.length (a ++ b)%string = (String.length a + String.length b).
Proof. induction a as [|x a IH]; intros b; [reflexivity|]. cbn. now rewrite IH. Qed.

Lemma app_cancel_r : forall c a b, (a ++ c = b ++ c)%string -> a = b.
Proof.
  intros c. induction a as [|x a IH]; intros [|y b] H; cbn in H.
  - reflexivity.
  - apply (f_equal String.length) in H. cbn in H. rewrite len_app_s in H. lia.
  - apply (f_equal String.length) in H. cbn in H. rewrite len_app_s in H. lia.
  - injection H as -> H. f_equal. now apply IH.
Qed.

Lemma free_app : forall c a b, free_of c a -> free_of c b -> free_of c (a ++ b)%string.
Proof. intros c. induction a as [|x a IH]; intros b Fa Fb; [exact Fb|]. destruct Fa. split; auto. Qed.

Ltac lit := repeat match goal with
  | |- free_of _ (_ ++ _)%string => apply free_app
  | |- free_of _ (String _ _) => split; [discriminate|]
  | |- free_of _ EmptyString => exact I
  end.

Lemma show_nat_inj : forall p q, show_nat p = show_nat q -> p = q.
Proof.
  assert (N : forall n, Nat.to_uint n <> Decimal.Nil).
  { intros n H. assert (Z := Unsigned.of_to n). rewrite H in Z. cbn in Z. subst n. discriminate H. }
  intros p q H. unfold show_nat in H. apply (f_equal NilZero.uint_of_string) in H.
  rewrite !NilZero.usu in H by apply N. injection H as H.
  apply (f_equal Nat.of_uint) in H. now rewrite !Unsigned.of_to in H.
Qed.

Lemma uint_free : forall c, (match c with "," | " " | "-" => true | _ => Ascii.eqb c (ascii_of_nat 10) end)%char = true ->
  forall u, free_of c (NilZero.string_of_uint u).
Proof.
  intros c Hc.
  assert (K : forall d, In d ["0"; "1"; "2"; "3"; "4"; "5"; "6"; "7"; "8"; "9"]%char -> d <> c).
  { intros d I E. subst d. cbn in I. decompose [or] I; subst; try discriminate Hc; contradiction. }
  assert (G : forall v, free_of c (NilEmpty.string_of_uint v)).
  { induction v; cbn; try exact I; (split; [apply K; cbn; tauto|assumption]). }
  intros u. destruct u; try apply (G (_ u)). cbn. split; [|exact I]. apply K. cbn. tauto.
Qed.

Lemma nat_free : forall p, free_of "," (show_nat p).
Proof. intros p. now apply uint_free. Qed.

Lemma nat_free_space : forall p, free_of " " (show_nat p).
Proof. intros p. now apply uint_free. Qed.

Lemma nat_free_line : forall p, free_of (ascii_of_nat 10) (show_nat p).
Proof. intros p. now apply uint_free. Qed.

(** C99: two built-in kernels have the same text exactly if they are of the same class and have the same
    parameters; only skip_input_checks is not shown. *)
Lemma pf_C99_same : forall {P} (show : P -> string) (k l : bkernel P), readable show ->
  (kernel_str show k = kernel_str show l <-> checked k = checked l).
Proof.
  intros P show k l [I C].
  assert (C1 : forall a, free_of "," (show a)) by (intros a; apply C).
  assert (one : forall s a b, (s ++ show a ++ ")" = s ++ show b ++ ")")%string -> a = b).
  { intros s a b H. apply I. apply app_cancel_l in H. now apply app_cancel_r in H. }
  split.
  - destruct k as [a ?|d g b ?|s ?|g ?|g ?|g o ?|?|[|] ?], l as [a' ?|d' g' b' ?|s' ?|g' ?|g' ?|g' o' ?|?|[|] ?];
      unfold kernel_str, kernel_name; cbn [checked]; intros H; try discriminate H; try reflexivity.
    + apply app_cancel_l in H. apply (one "(alpha=") in H. now subst.
    + apply app_cancel_l in H. apply (app_cancel_l "(degree=") in H.
      apply (split_char ",") in H; [|apply C1|apply C1]. destruct H as [H1 H].
      apply (app_cancel_l "gamma=") in H.
      apply (split_char ",") in H; [|apply C1|apply C1]. destruct H as [H2 H].
      apply (one "b=") in H. apply I in H1, H2. now subst.
    + apply app_cancel_l in H. apply (one "(sigma=") in H. now subst.
    + apply app_cancel_l in H. apply (one "(gamma=") in H. now subst.
    + apply app_cancel_l in H. apply (one "(gamma=") in H. now subst.
    + apply app_cancel_l in H. apply (app_cancel_l "(gamma=") in H.
      apply (split_char ",") in H; [|apply C1|apply C1]. destruct H as [H1 H].
      apply (one "offset=") in H. apply I in H1. now subst.
  - intros H. replace (kernel_str show k) with (kernel_str show (checked k)) by now destruct k.
    rewrite H. now destruct l.
Qed.

(** C99: so for kernels as constructed: equal texts mean the same class and the same parameters, where a
    GaussianKernel shows the bandwidth it works with. *)
Lemma pf_C99_constructed : forall {P} (show : P -> string) nz eps (c d k l : bkernel P), readable show ->
  construct nz eps c = Ok k -> construct nz eps d = Ok l ->
  (kernel_str show k = kernel_str show l <->
   checked c = checked d \/
   exists s t b b', c = OGaussian s b /\ d = OGaussian t b' /\ eps s = eps t).
Proof.
  intros P show nz eps c d k l R Ec Ed. rewrite pf_C99_same by exact R. split.
  - destruct c, d; cbn in Ec, Ed;
      repeat match goal with
      | H : (if ?b then _ else _) = Ok _ |- _ => destruct b; [discriminate|]
      | H : Ok _ = Ok _ |- _ => injection H as <-
      end; cbn; intros H; try discriminate H; try (left; exact H).
    right. injection H as H. eauto 8.
  - assert (K : forall x y, construct nz eps x = Ok y -> forall x' y', construct nz eps x' = Ok y' ->
                checked x = checked x' -> checked y = checked y').
    { intros x y E x' y' E' H. destruct x, x'; cbn in H; try discriminate H; cbn in E, E';
        repeat match goal with
        | H : (if ?b then _ else _) = Ok _ |- _ => destruct b; [discriminate|]
        | H : Ok _ = Ok _ |- _ => injection H as <-
        end; cbn; try exact H. now injection H as ->. }
    intros [H|(s & t & b & b' & -> & -> & H)]; [eauto|].
    cbn in Ec, Ed. injection Ec as <-. injection Ed as <-. cbn. now rewrite H.
Qed.

(** C99: the text starts with the name of the kernel, which tells the class (and for the categorical kernel,
    whether it returns percentages); it has no space or line break. *)
Lemma pf_C99_name : forall {P} (show : P -> string) (k : bkernel P), readable show ->
  (exists rest, kernel_str show k = (kernel_name k ++ rest)%string) /\
  free_of " " (kernel_str show k) /\ free_of (ascii_of_nat 10) (kernel_str show k).
Proof.
  intros P show k [I C]. split; [unfold kernel_str; eauto|].
  destruct k as [a ?|d g b ?|s ?|g ?|g ?|g o ?|?|[|] ?]; unfold kernel_str, kernel_name; split; lit; apply C.
Qed.

(** C99: KernelMatrix(kernel, normalized) is a TypeError exactly if the first is not a kernel function or the
    second not a bool. *)
Lemma pf_C99_constructor : forall {K} (k : karg K) n,
  (check_km_args k n = Raise TypeError <-> (forall f, k <> KAFunction f) \/ (forall b, n <> NABool b)) /\
  (forall f b, check_km_args k n = Ok (f, b) <-> k = KAFunction f /\ n = NABool b).
Proof.
  intros K [f|] [b|]; cbn; split; try (intros; split; [discriminate|intros [? ?]; discriminate]).
  - split; [discriminate|]. intros [H|H]; [now elim (H f)|now elim (H b)].
  - intros f' b'. split; [intros [= -> ->]; now split|intros [[= ->] [= ->]]; reflexivity].
  - split; [intros _; right; discriminate|reflexivity].
  - split; [intros _; left; discriminate|reflexivity].
  - split; [intros _; left; discriminate|reflexivity].
Qed.

(** C99: kernel matrices of the same name, attached (in whatever history) to samples called the same, have
    the same text exactly if their kernels have the same class and parameters, the normalisation flag is the
    same, and so are the sizes of the samples. *)
Lemma pf_C99_matrices :
  forall {E V U P} (N : numops V) (show : P -> string) name (k l : bkernel P) (K L : kernel E V) b b'
         (pre pre' post post' : list (pact E U)) x x' n1 n2 n n' d d',
    readable show -> admissible x None n n d -> ~ all_accepted post ->
    admissible x' None n' n' d' -> ~ all_accepted post' ->
    (km_str (prun N (pre ++ (OpAttach x None, n1, n2) :: post) (p_new K b name (kernel_str show k))) =
     km_str (prun N (pre' ++ (OpAttach x' None, n1, n2) :: post') (p_new L b' name (kernel_str show l))) <->
     checked k = checked l /\ b = b' /\ n = n' /\ d = d').
Proof.
  intros E V U P N show name k l K L b b' pre pre' post post' x x' n1 n2 n n' d d' R A NA A' NA'.
  rewrite (pf_C81_attached N K b name (kernel_str show k) pre post x None n1 n2 n n d A NA).
  rewrite (pf_C81_attached N L b' name (kernel_str show l) pre' post' x' None n1 n2 n' n' d' A' NA').
  destruct (pf_C99_name show k R) as (_ & Sk & _), (pf_C99_name show l R) as (_ & Sl & _).
  split.
  - intros H. injection H as H. apply app_cancel_l in H. apply (app_cancel_l ": ") in H.
    apply (split_char " ") in H; [|exact Sk|exact Sl]. destruct H as [H1 H].
    apply pf_C99_same in H1; [|exact R]. split; [exact H1|].
    apply (app_cancel_l "(normed=") in H.
    assert (b = b' /\ (") on " ++ n1 ++ " " ++ show_tuple [n; d] = ") on " ++ n1 ++ " " ++ show_tuple [n'; d'])%string)
      as [-> T].
    { destruct b, b'; try discriminate H; (split; [reflexivity|]); now apply app_cancel_l in H. }
    split; [reflexivity|]. apply app_cancel_l in T. apply app_cancel_l in T. apply (app_cancel_l " ") in T.
    unfold show_tuple in T. apply (app_cancel_l "(") in T. cbn [map String.concat] in T.
    rewrite !app_assoc_s in T. cbn [append] in T.
    apply (split_char ",") in T; [|now apply nat_free|now apply nat_free]. destruct T as [T1 T2].
    apply (app_cancel_l " ") in T2. apply app_cancel_r in T2. apply show_nat_inj in T1, T2. now split.
  - intros (H & -> & -> & ->). apply (pf_C99_same show k l R) in H. now rewrite H.
Qed.

Lemma numsamp_inj : forall a b, show_numsamp a = show_numsamp b -> a = b.
Proof.
  assert (N : forall n m, show_nat n <> show_tuple [n; m] /\ True) by (intros; split; [|exact I]; intros H;
    apply (f_equal String.length) in H; unfold show_tuple in H; cbn [map String.concat] in H; cbn in H;
    rewrite !len_app_s in H; lia).
  assert (F : forall n, exists c t, show_nat n = String c t /\ c <> "N"%char /\ c <> "("%char).
  { intros n. unfold show_nat. destruct (Nat.to_uint n) as [| | | | | | | | | |]; cbn;
      eexists; eexists; (split; [reflexivity|split; discriminate]). }
  intros [|n|n m] [|n'|n' m'] H; cbn [show_numsamp] in H; try reflexivity.
  - destruct (F n') as (c & t & E & D & _). rewrite E in H. injection H as H _. congruence.
  - discriminate H.
  - destruct (F n) as (c & t & E & D & _). rewrite E in H. injection H as H _. congruence.
  - apply show_nat_inj in H. now subst.
  - destruct (F n) as (c & t & E & _ & D). rewrite E in H. unfold show_tuple in H. cbn in H.
    injection H as H _. congruence.
  - discriminate H.
  - destruct (F n') as (c & t & E & _ & D). rewrite E in H. unfold show_tuple in H. cbn in H.
    injection H as H _. congruence.
  - unfold show_tuple in H. apply (app_cancel_l "(") in H. cbn [map String.concat] in H.
    rewrite !app_assoc_s in H. cbn [append] in H.
    apply (split_char ",") in H; [|apply nat_free|apply nat_free]. destruct H as [H1 H2].
    apply (app_cancel_l " ") in H2. apply app_cancel_r in H2. apply show_nat_inj in H1, H2. now subst.
Qed.

Lemma all_ok : forall ts, all_strings (map Ok ts) = Ok ts.
Proof. induction ts as [|t ts IH]; [reflexivity|]. cbn. now rewrite IH. Qed.

Lemma lines_inj : forall ts us, length ts = length us ->
  Forall (free_of (ascii_of_nat 10)) ts -> Forall (free_of (ascii_of_nat 10)) us ->
  (String.concat (newline ++ tab) ts ++ " " = String.concat (newline ++ tab) us ++ " ")%string -> ts = us.
Proof.
  induction ts as [|t ts IH]; intros [|u us] L Ft Fu H; try discriminate L; [reflexivity|].
  injection L as L. inversion Ft as [|? ? Ht Fts]. inversion Fu as [|? ? Hu Fus]. subst.
  destruct ts as [|t' ts], us as [|u' us]; try discriminate L.
  - cbn [String.concat] in H. apply app_cancel_r in H. now subst.
  - change (String.concat (newline ++ tab) (t :: t' :: ts))
      with (t ++ (newline ++ tab) ++ String.concat (newline ++ tab) (t' :: ts))%string in H.
    change (String.concat (newline ++ tab) (u :: u' :: us))
      with (u ++ (newline ++ tab) ++ String.concat (newline ++ tab) (u' :: us))%string in H.
    rewrite !app_assoc_s in H. unfold newline at 1 3 in H.
    change (String (ascii_of_nat 10) "" ++ ?x)%string with (String (ascii_of_nat 10) x) in H.
    cbn [append] in H.
    apply (split_char (ascii_of_nat 10)) in H; [|exact Ht|exact Hu]. destruct H as [-> H].
    apply (app_cancel_l tab) in H. f_equal. now apply IH.
Qed.

(** C99: two sets of the same name whose members have texts without line breaks have the same text exactly if
    they have the same number of samples and members with the same texts in the same order. *)
Lemma pf_C99_sets : forall name ns ns' ts us,
  Forall (free_of (ascii_of_nat 10)) ts -> Forall (free_of (ascii_of_nat 10)) us ->
  (set_str name ns (map Ok ts) = set_str name ns' (map Ok us) <-> ns = ns' /\ ts = us).
Proof.
  intros name ns ns' ts us Ft Fu. unfold set_str. rewrite !all_ok, !map_length. cbn [rbind]. split.
  - intros H. injection H as H. apply app_cancel_l in H. apply (app_cancel_l "(") in H.
    apply (split_char " ") in H; [|apply nat_free_space|apply nat_free_space]. destruct H as [HL H].
    apply show_nat_inj in HL. apply (app_cancel_l "kernels, ") in H.
    assert (NF : forall a, free_of (ascii_of_nat 10) (show_numsamp a)).
    { intros [|n|n m]; cbn [show_numsamp]; [lit; exact I|apply nat_free_line|].
      unfold show_tuple. cbn [map String.concat]. lit; apply nat_free_line. }
    assert (J : ((show_numsamp ns ++ " samples):") ++
                  String (ascii_of_nat 10) (tab ++ String.concat (newline ++ tab) ts ++ " ") =
                 (show_numsamp ns' ++ " samples):") ++
                  String (ascii_of_nat 10) (tab ++ String.concat (newline ++ tab) us ++ " "))%string)
      by (rewrite !app_assoc_s; exact H).
    clear H. rename J into H.
    apply split_char in H; [|lit; apply NF|lit; apply NF]. destruct H as [HN H].
    apply app_cancel_r in HN. apply numsamp_inj in HN. split; [exact HN|].
    apply (app_cancel_l tab) in H. now apply lines_inj in H.
  - intros [-> ->]. reflexivity.
Qed.

Lemma int_readable : readable show_int.
Proof.
  assert (N : forall z, Z.to_int z <> Decimal.Pos Decimal.Nil /\ Z.to_int z <> Decimal.Neg Decimal.Nil).
  { intros z. split; intros H; assert (Z := DecimalZ.of_to z); rewrite H in Z; cbn in Z; subst z; discriminate H. }
  split.
  - intros a b H. unfold show_int in H. apply (f_equal NilZero.int_of_string) in H.
    rewrite !NilZero.isi in H by apply N. injection H as H. now apply DecimalZ.to_int_inj.
  - intros a. unfold show_int. destruct (Z.to_int a) as [u|u]; cbn [NilZero.string_of_int];
      repeat split; try discriminate; now apply uint_free.
Qed.

(** C99: integers are shown so. *)
Lemma pf_C99_readable : readable show_int.
Proof. exact int_readable. Qed.

(** C99: the hypotheses are met; and a kernel of the default parameters is shown with all of them. *)
Lemma pf_C99_example :
  kernel_str show_int (OPoly 3 1 (-1) true)%Z = "polynomial(degree=3,gamma=1,b=-1)" /\
  kernel_str show_int (OPoly 3 1 (-1) true)%Z <> kernel_str show_int (OPoly 3 11 1 true)%Z /\
  kernel_str show_int (OLaplacian 1%Z false) <> kernel_str show_int (OChi2 1%Z false) /\
  kernel_str show_int (OMatch true false) = "MatchPerc" /\
  construct (Z.eqb 0) (Z.max 1) (OGaussian 0%Z false) = Ok (OGaussian 1%Z false) /\
  construct (Z.eqb 0) (Z.max 1) (OHadamard 0%Z false) = Raise ValueError.
Proof.
  split; [reflexivity|]. split; [|split; [|repeat split]].
  - intros H. apply (pf_C99_same show_int _ _ int_readable) in H. discriminate H.
  - intros H. apply (pf_C99_same show_int _ _ int_readable) in H. discriminate H.
Qed.

(*BEGIN PROP*)
(** The class of a kernel, as the user names it; MatchCountKernel counts twice, by its return_perc. *)
Definition kernel_class {P} (k : bkernel P) : string :=
  match k with
  | OHadamard _ _ => "Hadamard" | OPoly _ _ _ _ => "Poly" | OGaussian _ _ => "Gaussian"
  | OLaplacian _ _ => "Laplacian" | OChi2 _ _ => "Chi2" | OSigmoid _ _ _ => "Sigmoid"
  | OLinear _ => "Linear" | OMatch perc _ => if perc then "MatchPerc" else "MatchCount"
  end.
(*END PROP*)

(** C99: the name alone tells the class of a built-in kernel. *)
Lemma pf_C99_classes : forall {P} (k k' : bkernel P),
  kernel_name k = kernel_name k' <-> kernel_class k = kernel_class k'.
Proof.
  intros P k k'.
  destruct k, k'; try (destruct return_perc); try (destruct return_perc0); split; intros H; reflexivity || discriminate H.
Qed.

(** C99: the text of a kernel made from a callable: its name, followed by the keyword arguments if there are
    any. *)
Lemma pf_C99_callable : forall {A V} (show_dict : list (string * A) -> string) (k : kfc A V),
  (kc_params k = [] -> kfc_str show_dict k = kc_name k) /\
  (kc_params k <> [] -> kfc_str show_dict k = (kc_name k ++ "(" ++ show_dict (kc_params k) ++ ")")%string).
Proof.
  intros A V sd [f ps n]. unfold kfc_str. cbn [kc_params kc_name]. split.
  - intros ->. apply app_nil_s.
  - destruct ps as [|p ps]; [congruence|reflexivity].
Qed.

(** C99: kernels made from callables are another matter: the name given to KernelFromCallable is arbitrary, so
    one that computes something else can have the text of a built-in kernel. *)
Lemma pf_C99_callable_refuted : forall {V} (v : V),
  exists (k : kfc unit V), kfc_str (fun _ => "") k = kernel_str show_int (OGaussian 2%Z false) /\
    forall x y, kfc_call k x y = Ok v.
Proof.
  intros V v.
  exists (mkKfc (mkCallable true (Some [mkParam "x" PosOrKw false; mkParam "y" PosOrKw false]) (Some "f")
                  (fun _ => Ok v)) [] "gaussian(sigma=2)").
  split; reflexivity.
Qed.
