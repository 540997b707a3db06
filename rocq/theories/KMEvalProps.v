(** C02: the number of kernel evaluations with two samples. *)
From Coq Require Import String List Arith ZArith Bool Lia.
From Verif Require Import Prelude MatModel MatFacts UtilsModel IndexModel KMModel SpecKM SpecEval MFacts KMLog KMInv KMHist KMHist2 KMProps KMGet KMEval ToyModel.
Import ListNotations.

Lemma returned_le : forall {E V} (K : kernel E V) base (l : list (call E)),
  length (returned K base l) <= length (successful K 0 base l) + foreign l.
Proof.
  intros E V K base l. unfold foreign. induction l as [|c l IH]; [cbn; lia|]. cbn [returned successful filter].
  destruct (c_tag c =? 0) eqn:T; cbn [andb negb]; destruct (is_ok _); cbn [length]; lia.
Qed.

Lemma product_length : forall n m, length (product (seq 0 n) (seq 0 m)) = n * m.
Proof.
  intros n m. rewrite <- (seq_length n 0) at 2. rewrite <- (seq_length m 0) at 2.
  generalize (seq 0 n) as r. generalize (seq 0 m) as c. intros c r. unfold product.
  induction r as [|i r IH]; [reflexivity|]. cbn [flat_map length]. rewrite app_length, IH, map_length. lia.
Qed.

(** C02 for any samples and histories: the kernel returns at most n m + (n + m) (1 + f) values between two
    attach_to calls, where f is the number of operations in between that raised an exception: apart from
    the n m pairs, the self-similarities are evaluated once, and again after every failed
    normalisation. *)
Lemma pf_C02_two_samples_bound :
  forall {E V U} (N : numops V) (K : kernel E V) k nrm (pre post : list (op E U)) x y n m d,
    returns_only K k x y n m d -> admissible x y n m d -> no_attach post ->
    exists new,
      g_calls (after N K nrm pre x y post) = new ++ g_calls (before N K nrm pre) /\
      length (returned K (length (g_calls (before N K nrm pre))) new)
        <= n * m + (n + m) * (1 + failures (trace N post (after N K nrm pre x y []))).
Proof.
  intros E V U N K k nrm pre post x y n m d Hret Hadm Hno.
  destruct (pf_C02_pairs_once N K k nrm pre post x y n m d Hret Hadm Hno) as (new & Hnew & Hnd & Hr).
  exists new. split; [exact Hnew|].
  eapply Nat.le_trans; [apply returned_le|]. apply Nat.add_le_mono.
  - rewrite <- product_length. apply NoDup_incl_length; [exact Hnd|]. intros [i j] Hp.
    destruct (Hr _ Hp) as (H1 & H2 & _). cbn in *. apply in_product. split; apply in_seq; lia.
  - assert (Hs0 : after N K nrm pre x y [] = attached (before N K nrm pre) x y n m d).
    { rewrite (after_split N K nrm pre [] x y n m d Hadm). reflexivity. }
    rewrite Hs0. destruct (hist_attached N K nrm pre x y n m d Hadm) as (_ & _ & _ & Ht).
    fold (before N K nrm pre) in Ht.
    destruct (run_count N post (attached (before N K nrm pre) x y n m d) Hno Ht) as (added & Ha & Hb).
    rewrite (after_split N K nrm pre post x y n m d Hadm) in Hnew.
    change (g_calls (attached (before N K nrm pre) x y n m d)) with (g_calls (before N K nrm pre)) in Ha.
    assert (added = new) by (eapply app_inv_tail; rewrite <- Ha; exact Hnew). subst added.
    change (k_is_normed (attached (before N K nrm pre) x y n m d)) with false in Hb. cbn iota in Hb.
    replace (budget (attached (before N K nrm pre) x y n m d)) with (n + m) in Hb; [exact Hb|].
    unfold budget. cbn. destruct y as [y|]; cbn; [reflexivity|]. destruct Hadm as [_ Hm]. cbn in Hm. congruence.
Qed.

(*BEGIN PROP*)
Example C02_two_samples_example :
  let post := [OpFull; OpNormedKM; OpGetItem (IFlat 2); OpFull] in
  let s := after (U:=Z) toyN dot true [] toyX (Some toyX) post in
  length (returned dot 0 (g_calls s)) = 3 * 3 + (3 + 3) /\
  failures (trace toyN post (after (U:=Z) toyN dot true [] toyX (Some toyX) [])) = 0.
Proof. vm_compute. split; reflexivity. Qed.
(*END PROP*)
