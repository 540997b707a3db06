(** The warnings of an attached object, operation by operation. *)
From Coq Require Import String List Arith ZArith Bool Lia.
Import ListNotations.
From Verif Require Import Prelude MatModel MatFacts UtilsModel IndexModel KMModel SpecKM SpecRef WarnModel
  SpecWarn MFacts KMFacts KMIndex KMInv KMOps KMTotal KMGet KMProps RefFacts RefProps WarnFacts.
Local Open Scope list_scope.

Section Exact.
  Context {E V U : Type}.
  Variables (N : numops V) (K : kernel E V) (k : list E -> list E -> V) (nrm : bool) (X Y : ndarray E)
            (two : bool) (n m d : nat) (base : list (call E)).
  Hypothesis Hnr : never_raises K k X (Some Y) n m d.
  Hypothesis HX : nd_shape X = [n; d].
  Hypothesis HY : nd_shape Y = [m; d].
  Hypothesis Hone : two = false -> Y = X /\ m = n.
  Variable F : nat -> nat -> V.
  Hypothesis HF : forall i j, truev k X Y two d i j = F i j.
  Notation KM := (km E V U).
  Notation REF := (ref V U).
  Notation wact := (M (KM * list warning)).
  Notation absA := (abs N K k nrm X Y two n m d base F).
  Notation dx := (dX k X n d).
  Notation dy := (dY k Y m d).
  Notation st := (stored_as N n m F).
  Notation fm := (kfmt K).

  (** The first request of the matrix. *)
  Definition firstw (r : REF) : list warning :=
    match r_mat r with None => announced N fm (amat (st (Dense, true))) | Some _ => [] end.

  Lemma pop_em : forall dense low (s : KM) (r : REF), absA s r ->
    (dense = true -> r_mat r = None) -> (low = false -> dense = false /\ nrm = false) ->
    em (populate_fully_w N dense low) s =
    announced N fm (amat (st (cell (if dense then Dense else Lil) low r))).
  Proof.
    intros dense low s r Hab Hd Hl. rewrite pop_warns.
    destruct (pop_sim N K k nrm X Y two n m d base Hnr HX HY Hone F HF dense low s r Hab Hd Hl) as [_ P].
    rewrite P, request_eq. cbn [snd]. unfold announced.
    destruct (mall (v_finite N) (amat (st (cell (if dense then Dense else Lil) low r)))) eqn:B, fm; cbn [andb negb];
      rewrite ?B; reflexivity.
  Qed.

  Lemma ensure_em : forall (s : KM) (r : REF), absA s r ->
    em (when (negb (k_populated s)) (populate_fully_w N true true ;;; ret tt)) s = firstw r.
  Proof.
    intros s r Hab. rewrite em_ensure, (ab_populated N K k nrm X Y two n m d base F s r Hab). unfold firstw.
    destruct (r_mat r) eqn:Em; cbn [is_some]; [reflexivity|].
    rewrite (pop_em true true s r Hab); [|auto|discriminate]. unfold cell. rewrite Em. reflexivity.
  Qed.

  Notation cur := (@current V U N n m F fm).
  Definition curc (r : REF) : fmt * bool := match r_mat r with None => (Dense, true) | Some c => c end.
  (** Warnings of "make sure there is a matrix, then do [f]". *)
  Lemma ensure_then_em : forall {B} (fw : wact B) (f : M KM B) (s : KM) (r : REF), absA s r -> logs fw f ->
    forall l, (forall s' r', absA s' r' -> r_mat r' = Some (curc r) -> r_norm r' = r_norm r -> em fw s' = l) ->
    em (when (negb (k_populated s)) (populate_fully_w N true true ;;; ret tt) ;;; fw) s =
    firstw r ++ match snd (cur r) with Ok _ => l | Raise _ => [] end.
  Proof.
    intros B fw f s r Hab Lf l Hl.
    rewrite (em_bind _ (when (negb (k_populated s)) (populate_fully N true true ;;; ret tt)) _ (fun _ => f));
      [|apply logs_ensure|intro; exact Lf].
    rewrite (ensure_em s r Hab). f_equal.
    assert (Q := ensure_sim N K k nrm X Y two n m d base Hnr HX HY Hone F HF s r Hab).
    unfold sim, holds in Q.
    destruct (when (negb (k_populated s)) (populate_fully N true true ;;; ret tt) s) as [s' q].
    cbn [fst snd] in Q. destruct Q as [Q1 Q2]. unfold bind in Q1, Q2.
    assert (HC : cur r = match r_mat r with Some c => (r, Ok (st c)) | None => request N n m F fm Dense true r end).
    { unfold current, bind, get. destruct (r_mat r); reflexivity. }
    rewrite HC in *. unfold curc in Hl. destruct (r_mat r) as [c|] eqn:Em.
    - cbn [ret fst snd] in *. subst q. apply (Hl s' r); auto.
    - rewrite request_eq in *. cbn [fst snd] in *.
      destruct (negb fm && negb (mall (v_finite N) (amat (st (cell Dense true r))))) eqn:B0; cbn [fst snd ret] in *; subst q.
      + reflexivity.
      + apply (Hl s' _ Q1); cbn; auto. unfold cell. rewrite Em. reflexivity.
  Qed.

  (** What the object's warnings are made of once there is a matrix. *)
  Definition currentw (r : REF) (l : list warning) : list warning :=
    firstw r ++ match snd (cur r) with Ok _ => l | Raise _ => [] end.
  Lemma currentw_nil : forall r, currentw r [] = firstw r.
  Proof. intros r. unfold currentw. destruct (snd (cur r)); apply app_nil_r. Qed.

  Ltac lgs := repeat (apply logs_ensure || apply logs_pop || apply logs_normalize || apply logs_center || apply logs_silent
    || apply logs_ret || apply logs_lift || apply logs_raise || apply logs_warn || apply logs_when || apply logs_if
    || (apply logs_bind; [|intro])).
  Lemma em_get : forall {B} (fw : KM -> wact B) f (s : KM), (forall a, logs (fw a) (f a)) ->
    em (bind (silent get) fw) s = em (fw s) s.
  Proof.
    intros B fw f s Hf. rewrite (em_bind _ get _ f); [|apply logs_silent|exact Hf]. rewrite em_silent. reflexivity.
  Qed.
  Lemma em_attr : forall {A B} (p : KM -> option A) v (fw : A -> wact B) f (s : KM), (forall a, logs (fw a) (f a)) ->
    p s = Some v -> em (bind (silent (attr_or p)) fw) s = em (fw v) s.
  Proof.
    intros A B p v fw f s Hf Hp. rewrite (em_bind _ (attr_or p) _ f); [|apply logs_silent|exact Hf].
    rewrite em_silent. unfold attr_or, bind, get, ret. rewrite Hp. reflexivity.
  Qed.

  Lemma full_em : forall (s : KM) (r : REF), absA s r -> nrm = false -> em (full_w N) s = firstw r.
  Proof.
    intros s r Hab Hnrm. destruct (ab_facts N K k nrm X Y two n m d base F s r Hab) as (FK & Fn & FX & _).
    unfold full_w. rewrite (em_get _ (fun s0 => match k_sample s0 with
      | None => raise ValueError
      | Some _ => when (negb (k_populated s0)) (populate_fully N true true ;;; ret tt) ;;;
         if k_keep_normed s0 then s1 <- get ;; when (negb (k_is_normed s1)) (normalize N default_method) ;;; attr_or k_normed
         else attr_or k_full end)).
    2:{ intros a. destruct (k_sample a); lgs. }
    rewrite FX, Fn, Hnrm.
    rewrite (ensure_then_em (silent (attr_or k_full)) (attr_or k_full) s r Hab (logs_silent _) []).
    - apply currentw_nil.
    - intros. apply em_silent.
  Qed.

  Lemma frob_em : forall (s : KM) (r : REF), absA s r -> em (frob_norm_w N) s = firstw r.
  Proof.
    intros s r Hab. unfold frob_norm_w.
    rewrite (em_get _ (fun s0 => when (negb (k_populated s0)) (populate_fully N true true ;;; ret tt) ;;;
      s1 <- get ;; when (negb (is_some (k_frob s1))) (a <- attr_or k_full ;; v <- lift (op_frob N a) ;; modify (set_frob (Some v))) ;;;
      attr_or k_frob)); [|intros; lgs].
    rewrite ensure_then_em with (r := r) (l := []) (f := (s1 <- get ;;
      when (negb (is_some (k_frob s1))) (a <- attr_or k_full ;; v <- lift (op_frob N a) ;; modify (set_frob (Some v))) ;;;
      attr_or k_frob)); [apply currentw_nil|exact Hab|lgs|].
    intros s' r' Hab' Hc _. set (c := curc r) in *.
    rewrite (em_get _ (fun s1 => when (negb (is_some (k_frob s1))) (a <- attr_or k_full ;; v <- lift (op_frob N a) ;; modify (set_frob (Some v))) ;;;
      attr_or k_frob)); [|intros; lgs].
    rewrite (em_bind _ (when (negb (is_some (k_frob s'))) (a <- attr_or k_full ;; v <- lift (op_frob N a) ;; modify (set_frob (Some v)))) _ (fun _ => attr_or k_frob));
      [|lgs|intro; lgs].
    assert (H0 : em (when (negb (is_some (k_frob s'))) (a <- silent (attr_or k_full) ;; v <- lift (op_frob N a) ;; silent (modify (set_frob (Some v))))) s' = []).
    { destruct (negb _); cbn [when]; [|reflexivity].
      rewrite (em_attr k_full (st c) _ (fun a => v <- lift (op_frob N a) ;; modify (set_frob (Some v)))); [|intros; lgs|].
      - rewrite (em_bind _ (lift (op_frob N (st c))) _ (fun v => modify (set_frob (Some v)))); [|lgs|intro; lgs].
        unfold lift. destruct (op_frob N (st c)); [rewrite em_silent|]; reflexivity.
      - exact (read_full N K k nrm X Y two n m d base F s' r' c Hab' Hc). }
    rewrite H0. cbn [app]. destruct (when _ _ s') as [s2 [u|e]]; [apply em_silent|reflexivity].
  Qed.

  Lemma sparse_em : forall (s : KM) (r : REF), absA s r -> nrm = false ->
    em (full_sparse_w N) s = announced N fm (amat (st (cell Lil false r))).
  Proof.
    intros s r Hab Hnrm. destruct (ab_facts N K k nrm X Y two n m d base F s r Hab) as (FK & Fn & FX & _).
    unfold full_sparse_w. rewrite (em_get _ (fun s0 => if k_keep_normed s0
      then when (negb (k_is_normed s0)) (normalize N default_method) ;;; attr_or k_normed else populate_fully N false false));
      [|intros; lgs].
    rewrite Fn, Hnrm. rewrite (pop_em false false s r Hab); [reflexivity|discriminate|auto].
  Qed.

  (** *** center *)
  Definition quiet {A} (mw : wact A) : Prop := forall s, em mw s = [].
  Lemma quiet_bind : forall {A B} (mw : wact A) m (fw : A -> wact B) f, logs mw m -> (forall a, logs (fw a) (f a)) ->
    quiet mw -> (forall a, quiet (fw a)) -> quiet (bind mw fw).
  Proof.
    intros A B mw mm fw f H1 H2 Q1 Q2 s. rewrite (em_bind mw mm fw f H1 H2), Q1. cbn [app].
    destruct (mm s) as [s' [a|e]]; [apply Q2|reflexivity].
  Qed.
  Lemma em_then_quiet : forall {A B} (mw : wact A) m (fw : A -> wact B) f, logs mw m -> (forall a, logs (fw a) (f a)) ->
    (forall a, quiet (fw a)) -> forall s, em (bind mw fw) s = em mw s.
  Proof.
    intros A B mw mm fw f H1 H2 Q2 s. rewrite (em_bind mw mm fw f H1 H2).
    destruct (mm s) as [s' [a|e]]; rewrite ?Q2; apply app_nil_r.
  Qed.
  Lemma quiet_silent : forall {A} (mm : M KM A), quiet (silent mm).
  Proof. intros A mm s. apply em_silent. Qed.
  Lemma quiet_lift : forall {A} (r : res A), quiet (lift r).
  Proof. intros A r s. reflexivity. Qed.

  Lemma center_em : forall (s : KM) (r : REF), absA s r -> two = false -> em (center_w N) s = firstw r.
  Proof.
    intros s r Hab Htwo. destruct (ab_facts N K k nrm X Y two n m d base F s r Hab) as (FK & Fn & FX & FY & F2 & _).
    unfold center_w. rewrite (em_attr k_two two _ (fun two : bool => if two then raise NotImplementedErr else
      s <- get ;; when (negb (k_populated s)) (a <- populate_fully N true true ;; modify (set_full (Some a))) ;;;
      a <- attr_or k_full ;; c <- lift (op_center N a) ;; modify (set_centered (Some c)) ;;; modify (set_is_centered true)));
      [|intros; lgs|exact F2].
    rewrite Htwo. rewrite (em_get _ (fun s => when (negb (k_populated s)) (a <- populate_fully N true true ;; modify (set_full (Some a))) ;;;
      a <- attr_or k_full ;; c <- lift (op_center N a) ;; modify (set_centered (Some c)) ;;; modify (set_is_centered true)));
      [|intros; lgs].
    rewrite (em_then_quiet _ (when (negb (k_populated s)) (a <- populate_fully N true true ;; modify (set_full (Some a)))) _
      (fun _ => a <- attr_or k_full ;; c <- lift (op_center N a) ;; modify (set_centered (Some c)) ;;; modify (set_is_centered true)));
      [|lgs|intro; lgs|].
    - rewrite (ab_populated N K k nrm X Y two n m d base F s r Hab). unfold firstw.
      destruct (r_mat r) eqn:Em; cbn [is_some negb when]; [reflexivity|].
      rewrite (em_then_quiet _ (populate_fully N true true) _ (fun a => modify (set_full (Some a))));
        [|lgs|intro; lgs|intro; apply quiet_silent].
      rewrite (pop_em true true s r Hab); [|auto|discriminate]. unfold cell. rewrite Em. reflexivity.
    - intros _. eapply quiet_bind; [apply logs_silent|intro; lgs|apply quiet_silent|]. intros a.
      eapply quiet_bind; [apply logs_lift|intro; lgs|apply quiet_lift|]. intros c.
      eapply quiet_bind; [apply logs_silent|intro; lgs|apply quiet_silent|]. intros _. apply quiet_silent.
  Qed.
  Lemma centered_em : forall (s : KM) (r : REF), absA s r -> two = false -> (r_cent r <> None -> r_mat r <> None) ->
    em (centered_w N) s = firstw r.
  Proof.
    intros s r Hab Htwo Hi. destruct (ab_facts N K k nrm X Y two n m d base F s r Hab) as (FK & Fn & FX & FY & F2 & _).
    unfold centered_w. rewrite (em_attr k_two two _ (fun two : bool => if two then raise KMAccessError else
      s <- get ;; when (negb (k_is_centered s)) (center N) ;;; attr_or k_centered)); [|intros; lgs|exact F2].
    rewrite Htwo. rewrite (em_get _ (fun s => when (negb (k_is_centered s)) (center N) ;;; attr_or k_centered)); [|intros; lgs].
    rewrite (em_then_quiet _ (when (negb (k_is_centered s)) (center N)) _ (fun _ => attr_or k_centered));
      [|lgs|intro; lgs|intro; apply quiet_silent].
    destruct (k_is_centered s) eqn:Hc; cbn [negb when]; [|apply center_em; assumption].
    assert (Hk := ab_cent N K k nrm X Y two n m d base F s r Hab).
    assert (Hk1 := ab_cent1 N K k nrm X Y two n m d base F s r Hab Hc). rewrite Hc in Hk. cbn [flag] in Hk.
    unfold firstw. destruct (r_mat r); [reflexivity|]. destruct (Hi ltac:(congruence) eq_refl).
  Qed.

  (** *** normalize *)
  Definition normw (meth : string) (r : REF) : list warning :=
    match r_norm r with
    | Some _ => []
    | None => if two then match op_normalize2 N (st (curc r)) dx dy with Ok nk => announced N fm (amat nk) | Raise _ => [] end
              else normalisation_warns N fm meth (st (curc r))
    end.

  Lemma norm_tail_logs : logs (silent (modify (set_is_normed true)) ;;; nk <- silent (attr_or k_normed) ;; warn_nan_inf_w N nk)
    (modify (set_is_normed true) ;;; nk <- attr_or k_normed ;; warn_if_nan_inf N nk : M KM unit).
  Proof. lgs. Qed.
  Lemma norm_tail_em : forall nk (s : KM), k_normed s = Some nk -> k_kernel s = K ->
    em (silent (modify (set_is_normed true)) ;;; nk <- silent (attr_or k_normed) ;; warn_nan_inf_w N nk) s =
    announced N fm (amat nk).
  Proof.
    intros nk s Hk HK.
    rewrite (em_bind _ (modify (set_is_normed true)) _ (fun _ => nk <- attr_or k_normed ;; warn_if_nan_inf N nk)); [|lgs|intro; lgs].
    rewrite em_silent. unfold modify at 1. cbn [app].
    rewrite (em_attr k_normed nk _ (fun nk => warn_if_nan_inf N nk)); [|intro; lgs|exact Hk].
    rewrite em_warn. cbn [k_kernel set_is_normed]. rewrite HK. reflexivity.
  Qed.

  Lemma normalize_em : forall meth (s : KM) (r : REF), absA s r ->
    em (normalize_w N meth) s = currentw r (normw meth r).
  Proof.
    intros meth s r Hab. unfold normalize_w.
    set (one := fun a : arr V => nk <- lift (op_normalize N meth a) ;; modify (set_normed (Some nk)) : M KM unit).
    set (bothM := (x <- attr_or k_sample ;; y <- attr_or k_sample_two ;; a <- attr_or k_full ;;
          dx0 <- temp_diagonal 1 x ;; dy0 <- temp_diagonal 2 y ;;
          nk <- lift (op_normalize2 N a dx0 dy0) ;; modify (set_normed (Some nk))) : M KM unit).
    set (tail := (modify (set_is_normed true) ;;; nk <- attr_or k_normed ;; warn_if_nan_inf N nk) : M KM unit).
    set (body := fun s1 : KM => when (negb (k_is_normed s1)) (two <- attr_or k_two ;;
        (if negb two then a <- attr_or k_full ;; one a else bothM) ;;; tail)).
    rewrite (em_get _ (fun s0 : KM => when (negb (k_populated s0)) (populate_fully N true true ;;; ret tt) ;;; s1 <- get ;; body s1)).
    2:{ intros a. unfold body, bothM, one, tail. repeat (apply logs_tell || lgs). }
    rewrite ensure_then_em with (r := r) (l := normw meth r) (f := (s1 <- get ;; body s1)); [reflexivity|exact Hab| |].
    { unfold body, bothM, one, tail. repeat (apply logs_tell || lgs). }
    intros s1 r1 H1 Hc HN. rewrite (em_get _ body).
    2:{ intros a. unfold body, bothM, one, tail. repeat (apply logs_tell || lgs). }
    assert (Hn := ab_norm N K k nrm X Y two n m d base F s1 r1 H1).
    assert (Hn1 := ab_norm1 N K k nrm X Y two n m d base F s1 r1 H1). unfold flag in Hn. unfold normw. rewrite <- HN, <- Hn.
    destruct (k_is_normed s1) eqn:Hin; cbn [negb when].
    { destruct (k_normed s1); [reflexivity|destruct (Hn1 eq_refl eq_refl)]. }
    destruct (ab_facts N K k nrm X Y two n m d base F s1 r1 H1) as (FK & Fn & FX & FY & F2 & Fs & _).
    assert (Ha := read_full N K k nrm X Y two n m d base F s1 r1 _ H1 Hc).
    rewrite (em_attr k_two two _ (fun two => (if negb two then a <- attr_or k_full ;; one a else bothM) ;;; tail)); [| |exact F2].
    2:{ intros a. unfold bothM, one, tail. repeat (apply logs_tell || lgs). }
    destruct (Bool.bool_dec two true) as [Htwo|Htwo]; [|apply not_true_is_false in Htwo].
    - rewrite (em_bind _ bothM _ (fun _ => tail)).
      2:{ rewrite Htwo. cbn [negb]. unfold bothM. repeat lgs. }
      2:{ intro. unfold tail. lgs. }
      rewrite Htwo at 1. cbn [negb].
      match goal with |- em ?mw s1 ++ _ = _ => assert (HQ : quiet mw) end.
      { eapply quiet_bind; [apply logs_silent|intro; lgs|apply quiet_silent|]. intro.
        eapply quiet_bind; [apply logs_silent|intro; lgs|apply quiet_silent|]. intro.
        eapply quiet_bind; [apply logs_silent|intro; lgs|apply quiet_silent|]. intro.
        eapply quiet_bind; [apply logs_silent|intro; lgs|apply quiet_silent|]. intro.
        eapply quiet_bind; [apply logs_silent|intro; lgs|apply quiet_silent|]. intro.
        eapply quiet_bind; [apply logs_lift|intro; lgs|apply quiet_lift|]. intro. apply quiet_silent. }
      rewrite HQ. cbn [app].
      assert (S := norm2_spec N K k nrm X Y two n m d base (Hret' K k X Y n m d Hnr) HX HY Hone s1
                     (ab_sane N K k nrm X Y two n m d base F s1 r1 H1)).
      unfold holds, norm2 in S. fold bothM in S. destruct (bothM s1) as [s2 q2]. cbn [fst snd] in S. destruct S as [_ S].
      rewrite Ha in S. destruct S as (added & _ & S). rewrite Htwo. destruct q2 as [u|e].
      + destruct S as (nk & Hnk & ->). rewrite Hnk. apply norm_tail_em; [reflexivity|exact FK].
      + destruct S as [_ [S|S]]; [destruct (not_raised K k X Y n m d Hnr e S)|]. rewrite S. reflexivity.
    - rewrite Htwo. cbn [negb].
      rewrite (em_bind _ (a <- attr_or k_full ;; one a) _ (fun _ => tail)).
      2:{ unfold one. repeat (apply logs_tell || lgs). }
      2:{ intro. unfold tail. lgs. }
      rewrite (em_attr k_full (st (curc r)) _ one); [| |exact Ha].
      2:{ intros a. unfold one. repeat (apply logs_tell || lgs). }
      rewrite (em_tell _ _ (one (st (curc r)))) by (unfold one; lgs).
      assert (HO : (a <- attr_or k_full ;; one a) s1 = match op_normalize N meth (st (curc r)) with
        | Ok nk => (set_normed (Some nk) s1, Ok tt) | Raise e => (s1, Raise e) end).
      { unfold one, bind, attr_or, bind, get, ret. rewrite Ha. unfold lift, modify.
        destruct (op_normalize N meth (st (curc r))); reflexivity. }
      rewrite HO. clear HO.
      rewrite (em_then_quiet _ (lift (op_normalize N meth (st (curc r)))) _ (fun nk => modify (set_normed (Some nk))));
        [|lgs|intro; lgs|intro; apply quiet_silent].
      rewrite (quiet_lift (op_normalize N meth (st (curc r))) s1).
      unfold normalize_km_warns, normalisation_warns.
      assert (Hsq : mr (amat (st (curc r))) =? mc (amat (st (curc r))) = true).
      { cbn. destruct (Hone Htwo) as [_ ->]. apply Nat.eqb_refl. }
      rewrite Hsq. cbn [negb]. rewrite app_nil_r.
      destruct (op_normalize N meth (st (curc r))) as [nk|e].
      + rewrite (norm_tail_em nk); [|reflexivity|exact FK].
        unfold contains_nan_inf, announced. destruct (mall (v_finite N) (amat nk)), fm; reflexivity.
      + rewrite app_nil_r. reflexivity.
  Qed.

  Lemma currentw_some : forall r l c, r_mat r = Some c -> currentw r l = l.
  Proof.
    intros r l c H. unfold currentw, firstw, current, bind, get. rewrite H. reflexivity.
  Qed.
  Lemma normed_em : forall (s : KM) (r : REF), absA s r -> (r_norm r <> None -> r_mat r <> None) ->
    em (when (negb (k_is_normed s)) (normalize_w N default_method) ;;; silent (attr_or k_normed)) s =
    currentw r (normw default_method r).
  Proof.
    intros s r Hab Hi.
    rewrite (em_then_quiet _ (when (negb (k_is_normed s)) (normalize N default_method)) _ (fun _ => attr_or k_normed));
      [|lgs|intro; lgs|intro; apply quiet_silent].
    destruct (k_is_normed s) eqn:Hc; cbn [negb when]; [|apply normalize_em; exact Hab].
    assert (Hk := ab_norm N K k nrm X Y two n m d base F s r Hab).
    assert (Hk1 := ab_norm1 N K k nrm X Y two n m d base F s r Hab Hc). rewrite Hc in Hk. cbn [flag] in Hk.
    assert (Hn : r_norm r <> None) by congruence.
    destruct (r_mat r) as [c|] eqn:Em; [|destruct (Hi Hn eq_refl)].
    rewrite (currentw_some r _ c Em). unfold normw. destruct (r_norm r); [reflexivity|destruct (Hn eq_refl)].
  Qed.
  Lemma normed_km_em : forall (s : KM) (r : REF), absA s r -> (r_norm r <> None -> r_mat r <> None) ->
    em (normed_km_w N) s = currentw r (normw default_method r).
  Proof.
    intros s r Hab Hi. unfold normed_km_w.
    rewrite (em_get _ (fun s => when (negb (k_is_normed s)) (normalize N default_method) ;;; attr_or k_normed)); [|intros; lgs].
    apply normed_em; assumption.
  Qed.
  Lemma full_normed_em : forall (s : KM) (r : REF), absA s r -> nrm = true ->
    em (full_w N) s = currentw r (normw default_method r).
  Proof.
    intros s r Hab Hnrm. destruct (ab_facts N K k nrm X Y two n m d base F s r Hab) as (FK & Fn & FX & _).
    unfold full_w. rewrite (em_get _ (fun s0 => match k_sample s0 with
      | None => raise ValueError
      | Some _ => when (negb (k_populated s0)) (populate_fully N true true ;;; ret tt) ;;;
         if k_keep_normed s0 then s1 <- get ;; when (negb (k_is_normed s1)) (normalize N default_method) ;;; attr_or k_normed
         else attr_or k_full end)).
    2:{ intros a. destruct (k_sample a); lgs. }
    rewrite FX, Fn, Hnrm.
    rewrite ensure_then_em with (r := r) (l := normw default_method r)
      (f := (s1 <- get ;; when (negb (k_is_normed s1)) (normalize N default_method) ;;; attr_or k_normed));
      [reflexivity|exact Hab|lgs|].
    intros s' r' Hab' Hc HN.
    rewrite (em_get _ (fun s1 => when (negb (k_is_normed s1)) (normalize N default_method) ;;; attr_or k_normed)); [|intros; lgs].
    rewrite (normed_em s' r' Hab'), (currentw_some r' _ _ Hc).
    - unfold normw. rewrite HN. unfold curc at 1 2. rewrite Hc. reflexivity.
    - intros _. rewrite Hc. discriminate.
  Qed.
  Lemma sparse_normed_em : forall (s : KM) (r : REF), absA s r -> nrm = true -> (r_norm r <> None -> r_mat r <> None) ->
    em (full_sparse_w N) s = currentw r (normw default_method r).
  Proof.
    intros s r Hab Hnrm Hi. destruct (ab_facts N K k nrm X Y two n m d base F s r Hab) as (FK & Fn & FX & _).
    unfold full_sparse_w. rewrite (em_get _ (fun s0 => if k_keep_normed s0
      then when (negb (k_is_normed s0)) (normalize N default_method) ;;; attr_or k_normed else populate_fully N false false));
      [|intros; lgs].
    rewrite Fn, Hnrm. apply normed_em; assumption.
  Qed.

  (** *** Indexing *)
  Lemma getitem_em : forall ix (s : KM), k_shape s = Some (n, m) ->
    em (getitem_w N ix) s =
    match resolve n m ix with
    | Raise e => []
    | Ok (rows, cols) =>
        if (List.length rows =? n) && (List.length cols =? m) then em (populate_fully_w N false true) s else []
    end.
  Proof.
    intros ix s Hs.
    assert (Hpair : forall a b, em (getitem_pair_w N a b) s =
      match rbind (get_indices_in_sample (Some n) a) (fun r =>
            rbind (get_indices_in_sample (Some m) b) (fun c => Ok (fst r, fst c))) with
      | Raise e => []
      | Ok (rows, cols) => if (List.length rows =? n) && (List.length cols =? m) then em (populate_fully_w N false true) s else []
      end).
    { intros a b. unfold getitem_pair_w, em. unfold bind at 1. unfold silent at 1, get at 1. cbn [fst snd].
      rewrite Hs. cbn [option_map fst snd].
      unfold bind, lift.
      destruct (get_indices_in_sample (Some n) a) as [[r ar]|e] eqn:Ha; cbn [rbind]; [|reflexivity].
      destruct (get_indices_in_sample (Some m) b) as [[c ac]|e] eqn:Hb; cbn [rbind]; [|reflexivity].
      cbn [fst snd].
      assert (Har : ar = (List.length r =? n)).
      { destruct (get_indices_valid n a (valid1_dec_aux _ _ _ Ha)) as (r' & Hr' & _).
        rewrite Hr' in Ha. inversion Ha. reflexivity. }
      assert (Hac : ac = (List.length c =? m)).
      { destruct (get_indices_valid m b (valid1_dec_aux _ _ _ Hb)) as (r' & Hr' & _).
        rewrite Hr' in Hb. inversion Hb. reflexivity. }
      subst ar ac. destruct ((List.length r =? n) && (List.length c =? m)); [reflexivity|]. apply em_silent. }
    destruct ix as [a b|kk|]; cbn [getitem_w resolve].
    - apply Hpair.
    - rewrite (em_attr k_shape (n, m) _ (fun sh => p <- lift (unravel_index kk (fst sh) (snd sh)) ;; getitem_pair N (IInt (fst p)) (IInt (snd p))));
        [| |exact Hs].
      2:{ intros a. apply logs_bind; [apply logs_lift|]. intros p. apply logs_pair. }
      rewrite (em_bind _ (lift (unravel_index kk n m)) _ (fun p => getitem_pair N (IInt (fst p)) (IInt (snd p))));
        [|apply logs_lift|intro; apply logs_pair].
      rewrite quiet_lift. cbn [app fst snd]. unfold lift. destruct (unravel_index kk n m) as [p|e]; cbn [rbind]; [|reflexivity].
      apply Hpair.
    - reflexivity.
  Qed.
  Lemma whole_em : forall (s : KM) (r : REF) o, absA s r -> asks_whole n m o ->
    em (step_w N o) s = announced N fm (amat (st (cell Lil true r))).
  Proof.
    intros s r o Hab Ho. destruct o; try destruct Ho. cbn [step_w]. rewrite (em_fmap _ _ (getitem N ix)) by apply logs_getitem.
    destruct (ab_facts N K k nrm X Y two n m d base F s r Hab) as (FK & Fn & FX & FY & F2 & Fs & _).
    rewrite (getitem_em ix s Fs). destruct (resolve_valid n m ix H) as (rows & cols & Hr & Hsel & _). rewrite Hr.
    unfold selects_all in H0. destruct (selection2_unique X Y two n m Hone ix _ _ _ _ H0 Hsel) as [<- <-].
    rewrite !seq_length, !Nat.eqb_refl. cbn [andb].
    apply (pop_em false true s r Hab); discriminate.
  Qed.
  Lemma part_em : forall (s : KM) (r : REF) ix, absA s r -> ~ asks_whole n m (OpGetItem ix : op E U) ->
    em (step_w N (OpGetItem ix)) s = [].
  Proof.
    intros s r ix Hab Ho. cbn [step_w]. rewrite (em_fmap _ _ (getitem N ix)) by apply logs_getitem.
    destruct (ab_facts N K k nrm X Y two n m d base F s r Hab) as (FK & Fn & FX & FY & F2 & Fs & _).
    rewrite (getitem_em ix s Fs). destruct (valid_or_not n m ix) as [Hv|Hv].
    2:{ destruct (resolve_invalid n m ix Hv) as (e & -> & _). reflexivity. }
    destruct (resolve_valid n m ix Hv) as (rows & cols & -> & Hsel & _).
    destruct ((List.length rows =? n) && (List.length cols =? m)) eqn:B; [|reflexivity].
    destruct Ho. split; [exact Hv|]. apply andb_true_iff in B. destruct B as [T1 T2].
    assert (W : rows = seq 0 n /\ cols = seq 0 m).
    { destruct ix as [a b|kk|]; cbn in Hsel, Hv.
      - destruct Hsel, Hv. split; eapply selection_whole; eassumption.
      - destruct Hsel as (i & j & Hi & Hj & _ & -> & ->).
        apply Nat.eqb_eq in T1, T2. cbn [List.length] in T1, T2.
        split; [rewrite <- T1|rewrite <- T2]; cbn; f_equal; lia.
      - destruct Hsel. }
    destruct W as [-> ->]. exact Hsel.
  Qed.

  (** *** Every operation, by the state of the reference object *)
  Definition ok_r (r : REF) : Prop := (r_norm r <> None -> r_mat r <> None) /\ (r_cent r <> None -> r_mat r <> None).

  Theorem warns_normalising : forall (s : KM) (r : REF) o meth, absA s r -> ok_r r -> normalising nrm o meth ->
    warns N o s = currentw r (normw meth r).
  Proof.
    intros s r o meth Hab [Hi _] Ho. unfold warns. fold (em (step_w N o) s).
    destruct o; cbn [normalising] in Ho; try contradiction; cbn [step_w].
    - destruct Ho as [Hn ->]. rewrite (em_fmap _ _ (full N)) by apply logs_full. apply full_normed_em; assumption.
    - destruct Ho as [Hn ->]. rewrite (em_fmap _ _ (full_sparse N)) by apply logs_full_sparse. apply sparse_normed_em; assumption.
    - rewrite (em_fmap _ _ (normalize N method)) by apply logs_normalize. subst meth. apply normalize_em; assumption.
    - subst meth. rewrite (em_fmap _ _ (normed_km N)) by apply logs_normed. apply normed_km_em; assumption.
  Qed.
End Exact.

(** ** What was normalised before *)
Section Normed.
  Context {E V U : Type}.
  Variables (N : numops V) (n m : nat) (F : nat -> nat -> V) (dx dy : list V) (two nrm fm : bool).
  Notation REF := (ref V U).
  Notation does := (@ref_does E V U N n m F dx dy two nrm fm).

  Definition calm {A} (a : M REF A) : Prop := forall r, r_norm (fst (a r)) = r_norm r.
  Lemma calm_bind : forall {A B} (a : M REF A) (f : A -> M REF B), calm a -> (forall v, calm (f v)) -> calm (bind a f).
  Proof.
    intros A B a f Ha Hf r. unfold bind. specialize (Ha r). destruct (a r) as [r' [v|e]]; cbn in *; [|exact Ha].
    rewrite Hf. exact Ha.
  Qed.
  Lemma calm_ret : forall {A} (v : A), calm (ret v).
  Proof. intros A v r. reflexivity. Qed.
  Lemma calm_get : calm get.
  Proof. intros r. reflexivity. Qed.
  Lemma calm_lift : forall {A} (v : res A), calm (lift v).
  Proof. intros A v r. reflexivity. Qed.
  Lemma calm_raise : forall {A} e, calm (@raise REF A e).
  Proof. intros A e r. reflexivity. Qed.
  Lemma calm_request : forall f low, calm (request N n m F fm f low).
  Proof. intros f low r. unfold request, reported, bind, get, modify, raise, ret. destruct (_ && _); reflexivity. Qed.
  Lemma calm_current : calm (current N n m F fm).
  Proof.
    intros r. unfold current, bind, get. destruct (r_mat r); [reflexivity|]. apply calm_request.
  Qed.
  Lemma calm_giving : forall {A B} (f : A -> B) a, calm a -> calm (giving f a).
  Proof. intros A B f a H. apply calm_bind; [exact H|]. intros v. apply calm_ret. Qed.
  Lemma calm_center : calm (ref_center N n m F fm).
  Proof.
    apply calm_bind; [apply calm_current|]. intros a. apply calm_bind; [apply calm_lift|]. intros c.
    apply calm_bind; [intros r; reflexivity|]. intros _. apply calm_ret.
  Qed.
  Lemma calm_frob : calm (ref_frob_norm N n m F fm).
  Proof.
    apply calm_bind; [apply calm_current|]. intros a. apply calm_bind; [apply calm_get|]. intros r.
    destruct (r_frob r); [apply calm_ret|]. apply calm_bind; [apply calm_lift|]. intros c.
    apply calm_bind; [intros r'; reflexivity|]. intros _. apply calm_ret.
  Qed.
  Lemma calm_centered : calm (ref_centered N n m F fm).
  Proof.
    apply calm_bind; [apply calm_get|]. intros r. destruct (r_cent r); [apply calm_ret|apply calm_center].
  Qed.

  (** Normalisation is done once. *)
  Definition once {A} (a : M REF A) : Prop := forall r r' q, a r = (r', q) ->
    (r_norm r <> None -> r_norm r' = r_norm r) /\ (forall v, q = Ok v -> r_norm r' <> None).
  Lemma once_normalize : forall meth, once (ref_normalize N n m F dx dy two fm meth).
  Proof.
    intros meth r r' q H. unfold ref_normalize in H. unfold bind at 1 in H. assert (C := calm_current r).
    destruct (current N n m F fm r) as [r1 [a|e]]; cbn [fst snd] in *.
    2:{ injection H as <- <-. split; [auto|discriminate]. }
    unfold bind at 1, get in H. destruct (r_norm r1) eqn:En; cbn [ret fst snd] in H.
    { injection H as <- <-. split; [congruence|]. intros _ _. congruence. }
    split; [congruence|]. intros v ->. unfold bind, lift, modify, reported, raise, ret in H.
    destruct (if two then _ else _) as [nk|e]; [|discriminate]. destruct (_ && _); [discriminate|].
    injection H as <- _. discriminate.
  Qed.
  Lemma once_normed : once (ref_normed_km N n m F dx dy two fm).
  Proof.
    intros r r' q H. unfold ref_normed_km in H. unfold bind at 1, get at 1 in H. destruct (r_norm r) as [nk|] eqn:En.
    - cbn in H. injection H as <- <-. split; [congruence|]. intros _ _. congruence.
    - split; [congruence|]. intros v ->. unfold bind at 1 in H.
      destruct (ref_normalize N n m F dx dy two fm "cosine" r) as [r1 q1] eqn:Er.
      destruct (once_normalize "cosine" r r1 q1 Er) as [_ O]. destruct q1 as [[]|e]; [|discriminate H].
      specialize (O tt eq_refl). unfold bind, get in H. destruct (r_norm r1) eqn:E1; [|destruct (O eq_refl)].
      injection H as <- _. congruence.
  Qed.
  Lemma once_giving : forall {A B} (f : A -> B) a, once a -> once (giving f a).
  Proof.
    intros A B f a H r r' q He. unfold giving, bind in He. destruct (a r) as [r1 q1] eqn:Ea.
    destruct (H r r1 q1 Ea) as [H1 H2]. destruct q1 as [v|e]; injection He as <- <-.
    - split; [exact H1|]. intros _ _. apply (H2 v eq_refl).
    - split; [exact H1|discriminate].
  Qed.
  Lemma once_after : forall {A B} (a : M REF A) (f : A -> M REF B), calm a -> (forall v, once (f v)) -> once (bind a f).
  Proof.
    intros A B a f Ha Hf r r' q H. unfold bind in H. assert (C := Ha r). destruct (a r) as [r1 [v|e]]; cbn [fst] in C.
    - rewrite <- C. exact (Hf v r1 r' q H).
    - injection H as <- <-. split; [auto|discriminate].
  Qed.

  Lemma does_norm : forall (o : op E U) r r' q, does o r r' q ->
    (exists meth, normalising nrm o meth /\ (r_norm r <> None -> r_norm r' = r_norm r) /\
                  (forall v, q = Ok v -> r_norm r' <> None)) \/
    ((forall meth, ~ normalising nrm o meth) /\ r_norm r' = r_norm r).
  Proof.
    assert (L : forall (o : op E U) meth r r' q, once (ref_op N n m F dx dy two nrm fm o) -> normalising nrm o meth ->
                 (r', q) = ref_op N n m F dx dy two nrm fm o r -> exists meth, normalising nrm o meth /\
                 (r_norm r <> None -> r_norm r' = r_norm r) /\ (forall v, q = Ok v -> r_norm r' <> None)).
    { intros o meth r r' q H Hn He. exists meth. split; [exact Hn|]. exact (H r r' q (eq_sym He)). }
    assert (R : forall (o : op E U) r r' q, calm (ref_op N n m F dx dy two nrm fm o) ->
                 (r', q) = ref_op N n m F dx dy two nrm fm o r -> r_norm r' = r_norm r).
    { intros o r r' q H He. specialize (H r). rewrite <- He in H. exact H. }
    intros o r r' q H.
    assert (C : (exists meth, normalising nrm o meth /\ once (ref_op N n m F dx dy two nrm fm o)) \/
                (forall ix, o <> OpGetItem ix) /\ (forall meth, ~ normalising nrm o meth) /\ calm (ref_op N n m F dx dy two nrm fm o) \/
                exists ix, o = OpGetItem ix).
    { destruct o; cbn [normalising ref_op].
      - destruct H.
      - destruct nrm.
        + left. exists default_method. split; [auto|]. apply once_giving.
          apply once_after; [apply calm_current|]. intros a. apply once_normed.
        + right. left. split; [discriminate|]. split; [intros meth [? _]; discriminate|]. apply calm_giving.
          apply calm_bind; [apply calm_current|]. intros a. apply calm_ret.
      - destruct nrm.
        + left. exists default_method. split; [auto|]. apply once_giving. apply once_normed.
        + right. left. split; [discriminate|]. split; [intros meth [? _]; discriminate|]. apply calm_giving. apply calm_request.
      - right. left. split; [discriminate|]. split; [intros _ []|]. destruct two; [apply calm_raise|]. apply calm_giving, calm_center.
      - right. left. split; [discriminate|]. split; [intros _ []|]. destruct two; [apply calm_raise|]. apply calm_giving, calm_centered.
      - left. exists method. split; [reflexivity|]. apply once_giving, once_normalize.
      - left. exists default_method. split; [reflexivity|]. apply once_giving, once_normed.
      - right. left. split; [discriminate|]. split; [intros _ []|]. apply calm_giving, calm_frob.
      - right. left. split; [discriminate|]. split; [intros _ []|]. destruct two; [apply calm_raise|apply calm_ret].
      - right. right. eauto.
      - right. left. split; [discriminate|]. split; [intros _ []|]. intros r0. reflexivity.
      - right. left. split; [discriminate|]. split; [intros _ []|]. intros r0. reflexivity.
      - right. left. split; [discriminate|]. split; [intros _ []|]. intros r0. reflexivity.
      - right. left. split; [discriminate|]. split; [intros _ []|]. intros r0. reflexivity.
      - right. left. split; [discriminate|]. split; [intros _ []|]. intros r0. reflexivity.
      - right. left. split; [discriminate|]. split; [intros _ []|]. intros r0. reflexivity. }
    destruct C as [(meth & H1 & H2)|[(H0 & H1 & H2)|(ix & ->)]].
    - left. apply (L o meth r r' q H2 H1). apply (does_op N n m F dx dy two nrm fm); [|exact H].
      intros ix ->. destruct H1.
    - right. split; [exact H1|]. apply (R o r r' q H2). apply (does_op N n m F dx dy two nrm fm); assumption.
    - right. split; [intros _ []|]. cbn [ref_does] in H. destruct H as [(_ & _ & H)|[(rows & cols & _ & _ & _ & -> & _)|(_ & -> & _)]]; auto.
      assert (C := @calm_giving (arr V) (out V U) (@OArr V U) _ (calm_request Lil true) r). rewrite <- H in C. exact C.
  Qed.
End Normed.
