(** C86: the Exec of a CNIConfig that several goroutines share. *)
From Coq Require Import List Arith Bool Lia.
From Verif Require Import Model.Prog Model.Share Spec.ShareSpec Proofs.ConfineP.
Import ListNotations.

(** *** Once the field is set nobody writes it *)
Inductive reader (t : exec_type) (d : pointer) : mprog -> Prop :=
| reader_ret : reader t d MRet
| reader_type k : reader t d (k t) -> reader t d (MLoadType k)
| reader_data k : reader t d (k d) -> reader t d (MLoadData k)
| reader_use k : reader t d k -> reader t d (MUse t d k).
Lemma reader_mention t d k : reader t d k -> reader t d (mention k).
Proof. intros H. repeat constructor. exact H. Qed.
Lemma reader_calls o t d plugins : t <> TypeNil -> reader t d (api_calls o plugins).
Proof.
  intros N. induction plugins as [|f l IH]; [constructor|]. cbn [api_calls]. unfold one_plugin, ensure_exec. constructor.
  assert (M : reader t d (mention (if f then mention (api_calls o l) else api_calls o l))) by (destruct f; repeat apply reader_mention; exact IH).
  destruct t; [now destruct N|exact M|exact M].
Qed.
Lemma nth_set {A} i (x : A) l p q : nth_error l i = Some p -> In q (set_nth i x l) -> q = x \/ In q l.
Proof.
  revert l. induction i as [|i IH]; intros [|y l] E H; try discriminate; cbn in *.
  - destruct H as [<-|H]; auto.
  - destruct H as [<-|H]; [auto|]. destruct (IH _ E H) as [->|]; auto.
Qed.
Lemma readers ps m uses m' qs : shared ps m uses m' qs -> forall t d, m_type m = t -> m_data m = d -> (forall p, In p ps -> reader t d p) ->
  (forall i u, In (i, u) uses -> u = (t, d)) /\ m' = m.
Proof.
  induction 1 as [ps m|ps m i p u m1 q uses m2 qs N S _ IH]; intros t d T D R; [split; [intros i u []|reflexivity]|].
  pose proof (R p (nth_error_In _ _ N)) as Rp.
  assert (K : m1 = m /\ reader t d q /\ forall x, In x u -> x = (t, d)).
  { destruct S; inversion Rp; subst; (split; [reflexivity|]; split; [assumption|]); cbn; intros x; [intros []|intros []|intros [<-|[]]; reflexivity]. }
  destruct K as (-> & Rq & U). destruct (IH t d T D) as [A B].
  { intros p' I. destruct (nth_set _ _ _ _ _ N I) as [->|I']; [exact Rq|now apply R]. }
  split; [|exact B]. intros j x I. apply in_app_iff in I as [I|I]; [|now apply (A j)]. apply in_map_iff in I as (y & E & I). injection E as <- <-. now apply U.
Qed.

(** A CNIConfig made with an Exec may be used by any number of goroutines at once: every use is of
    that Exec, whatever order they take turns in. *)
Theorem C86_given_exec : forall o n d ps uses m' qs, goroutines o ps -> shared ps (made_with n d) uses m' qs ->
  forall i u, In (i, u) uses -> u = (TypeCaller n, d).
Proof.
  intros o n d ps uses m' qs G H. apply (readers _ _ _ _ _ H _ _ eq_refl eq_refl). intros p I. destruct (G p I) as (l & ->). now apply reader_calls.
Qed.
(** So may one made without, once some call has come past its first plugin. *)
Theorem C86_once_set : forall o m ps uses m' qs, goroutines o ps -> m_type m <> TypeNil -> shared ps m uses m' qs ->
  (forall i u, In (i, u) uses -> u = (m_type m, m_data m)) /\ m' = m.
Proof.
  intros o m ps uses m' qs G N H. apply (readers _ _ _ _ _ H _ _ eq_refl eq_refl). intros p I. destruct (G p I) as (l & ->). now apply reader_calls.
Qed.

(** *** One goroutine *)
Inductive solo : mprog -> memory -> list (exec_type * pointer) -> memory -> mprog -> Prop :=
| solo_done p m : solo p m [] m p
| solo_step p m u m1 q us m2 r : mstep p m u m1 q -> solo q m1 us m2 r -> solo p m (u ++ us) m2 r.
Lemma shared_solo ps m uses m' qs : shared ps m uses m' qs -> forall p, ps = [p] -> exists us q, solo p m us m' q /\ uses = map (pair 0) us.
Proof.
  induction 1 as [ps m|ps m i p u m1 q uses m2 qs N S _ IH]; intros x ->; [exists [], x; split; [constructor|reflexivity]|].
  destruct i as [|i]; [|destruct i; discriminate]. injection N as <-. destruct (IH q eq_refl) as (us & r & R & ->). exists (u ++ us), r.
  split; [econstructor; eassumption|]. now rewrite map_app.
Qed.
Lemma solo_reader t d p m us m' q : solo p m us m' q -> m_type m = t -> m_data m = d -> reader t d p -> (forall u, In u us -> u = (t, d)).
Proof.
  induction 1 as [|p m u m1 q us m2 r S _ IH]; intros T D R x I; [destruct I|].
  assert (K : m1 = m /\ reader t d q /\ forall x, In x u -> x = (t, d)).
  { destruct S; inversion R; subst; (split; [reflexivity|]; split; [assumption|]); cbn; intros y; [intros []|intros []|intros [<-|[]]; reflexivity]. }
  destruct K as (-> & Rq & U). apply in_app_iff in I as [I|I]; [now apply U|now apply IH].
Qed.
Ltac one S := inversion S; subst; clear S; [intros ? []|match goal with X : mstep _ _ _ _ _ |- _ => inversion X; subst; clear X end].
(** One goroutine alone always uses a complete Exec, and always the same. *)
Theorem C86_one_goroutine : forall o plugins uses m' qs, shared [api_calls o plugins] made_without uses m' qs ->
  exists a, a <> 0 /\ forall i u, In (i, u) uses -> u = (TypeDefault, a).
Proof.
  intros o plugins uses m' qs H. destruct (shared_solo _ _ _ _ _ H _ eq_refl) as (us & q & S & ->). clear H. exists 1. split; [lia|].
  intros i u I. apply in_map_iff in I as (x & E & I). injection E as <- <-. revert x I.
  destruct plugins as [|f l]; [inversion S; subst; [intros x []|match goal with X : mstep _ _ _ _ _ |- _ => inversion X end]|].
  cbn [api_calls] in S. unfold one_plugin, ensure_exec in S.
  one S. cbn [made_without m_type] in *.
  match goal with X : solo _ _ _ _ _ |- _ => one X end.
  assert (Rd : reader TypeDefault 1 (mention (if f then mention (api_calls o l) else api_calls o l))).
  { destruct f; repeat apply reader_mention; now apply reader_calls. }
  cbn [made_without m_type m_data m_next app] in *. destruct o; cbn [assign] in *.
  - match goal with X : solo _ _ _ _ _ |- _ => one X end. match goal with X : solo _ _ _ _ _ |- _ => one X end.
    intros x I. cbn [app] in I. match goal with X : solo _ _ _ _ _ |- _ => eapply (solo_reader TypeDefault 1) in X; [exact X|reflexivity|reflexivity|exact Rd|exact I] end.
  - match goal with X : solo _ _ _ _ _ |- _ => one X end. match goal with X : solo _ _ _ _ _ |- _ => one X end.
    intros x I. cbn [app] in I. match goal with X : solo _ _ _ _ _ |- _ => eapply (solo_reader TypeDefault 1) in X; [exact X|reflexivity|reflexivity|exact Rd|exact I] end.
Qed.

(** *** Any number of goroutines, the pointer stored before the type *)
Inductive known := Nothing | Pointer | Whole.
(** Programs that use only whole values, as long as what they know of the memory is true. *)
Inductive careful : known -> mprog -> Prop :=
| careful_ret n : careful n MRet
| careful_type n k : (n <> Whole -> careful n (k TypeNil)) -> careful Whole (k TypeDefault) -> careful n (MLoadType k)
| careful_data k : (forall d, d <> 0 -> careful Whole (k d)) -> careful Whole (MLoadData k)
| careful_alloc n k : (forall a, a <> 0 -> careful n (k a)) -> careful n (MAlloc k)
| careful_store_data n d k : d <> 0 -> careful (match n with Whole => Whole | _ => Pointer end) k -> careful n (MStoreData d k)
| careful_store_type n k : n <> Nothing -> careful Whole k -> careful n (MStoreType TypeDefault k)
| careful_use d k : d <> 0 -> careful Whole k -> careful Whole (MUse TypeDefault d k).
Definition true_of (n : known) (m : memory) : Prop :=
  match n with Nothing => True | Pointer => m_data m <> 0 | Whole => m_data m <> 0 /\ m_type m = TypeDefault end.
Definition steady (m : memory) : Prop := m_next m <> 0 /\ (m_type m = TypeNil \/ (m_type m = TypeDefault /\ m_data m <> 0)).
Lemma careful_mention k : careful Whole k -> careful Whole (mention k).
Proof. intros H. constructor; [congruence|]. constructor. intros d D. now constructor. Qed.
Lemma careful_calls plugins : forall n, careful n (api_calls DataFirst plugins).
Proof.
  induction plugins as [|f l IH]; intros n; [constructor|]. cbn [api_calls]. unfold one_plugin, ensure_exec.
  assert (M : careful Whole (mention (if f then mention (api_calls DataFirst l) else api_calls DataFirst l))) by (destruct f; repeat apply careful_mention; apply IH).
  constructor; [|exact M]. intros _. constructor. intros a A. cbn [assign]. constructor; [exact A|]. constructor; [destruct n; discriminate|exact M].
Qed.
Lemma careful_step n p m u m1 q : careful n p -> true_of n m -> steady m -> mstep p m u m1 q ->
  (exists n', careful n' q /\ true_of n' m1) /\ steady m1 /\ (forall n0, true_of n0 m -> true_of n0 m1) /\ (forall x, In x u -> a_default x).
Proof.
  intros C T [NX ST] S. destruct S; inversion C as [|n1 k1 C1 C2|k1 C1|n1 k1 C1|n1 d1 k1 C1 C2|n1 k1 C1 C2|d1 k1 C1 C2]; subst; cbn [m_type m_data m_next].
  - split; [|split; [now split|split; [auto|intros x []]]]. destruct ST as [E|[E D]]; rewrite E.
    + exists n. split; [|exact T]. apply C1. intros ->. destruct T as [_ T]. congruence.
    + exists Whole. split; [exact C2|]. now split.
  - split; [|split; [now split|split; [auto|intros x []]]]. exists Whole. split; [apply C1; apply T|exact T].
  - split; [|split; [split; [discriminate|exact ST]|split; [auto|intros x []]]]. exists n. split; [now apply C1|]. destruct n; exact T.
  - split; [|split; [|split; [|intros x []]]].
    + exists Whole. split; [exact C2|]. split; [|reflexivity]. cbn. destruct n; [now destruct C1|exact T|apply T].
    + split; [exact NX|right]. split; [reflexivity|]. cbn. destruct n; [now destruct C1|exact T|apply T].
    + intros [| |]; cbn; [auto|auto|]. intros [A _]. auto.
  - split; [|split; [|split; [|intros x []]]].
    + exists (match n with Whole => Whole | _ => Pointer end). split; [exact C2|]. destruct n; cbn; [exact C1|exact C1|]. split; [exact C1|apply T].
    + split; [exact NX|]. destruct ST as [E|[E _]]; [left; exact E|right; auto].
    + intros [| |]; cbn; [auto|auto|]. intros [_ B]. auto.
  - split; [|split; [now split|split; [auto|]]]; [exists Whole; auto|]. intros x [<-|[]]. now split.
Qed.
Theorem C86_pointer_first : forall ps uses m' qs, goroutines DataFirst ps -> shared ps made_without uses m' qs ->
  forall i u, In (i, u) uses -> a_default u.
Proof.
  intros ps uses m' qs G H.
  assert (K : steady made_without /\ forall p, In p ps -> exists n, careful n p /\ true_of n made_without).
  { split; [split; [discriminate|now left]|]. intros p I. destruct (G p I) as (l & ->). exists Nothing. split; [apply careful_calls|exact Logic.I]. }
  clear G. revert H K. generalize made_without. intros m H. induction H as [ps m|ps m i p u m1 q uses m2 qs N S _ IH]; intros [ST K] j x I; [destruct I|].
  destruct (K p (nth_error_In _ _ N)) as (n & C & T). destruct (careful_step _ _ _ _ _ _ C T ST S) as ((n' & C' & T') & ST' & MONO & U).
  apply in_app_iff in I as [I|I].
  - apply in_map_iff in I as (y & E & I). injection E as <- <-. now apply U.
  - apply (IH (conj ST' (fun p' I' => match nth_set _ _ _ _ _ N I' with
      | or_introl e => ex_intro _ n' (conj (eq_ind_r (careful n') C' e) T')
      | or_intror i' => match K p' i' with ex_intro _ n0 (conj c0 t0) => ex_intro _ n0 (conj c0 (MONO n0 t0)) end end)) j x I).
Qed.
(** With the other order, which the compiler is free to choose, a goroutine that comes between the
    two stores of another calls a method on a nil pointer. *)
Theorem C86_type_first_refuted : exists ps uses m' qs i u, goroutines TypeFirst ps /\ List.length ps = 2 /\ shared ps made_without uses m' qs /\
  In (i, u) uses /\ half_made u.
Proof.
  exists [api_calls TypeFirst [true]; api_calls TypeFirst [true]]. eexists _, _, _, 1, (TypeDefault, 0).
  split; [intros p [<-|[<-|[]]]; eauto|]. split; [reflexivity|]. split; [|split; [|split; reflexivity]].
  - eapply (shared_step _ _ 0); [reflexivity|constructor|]. cbn. eapply (shared_step _ _ 0); [reflexivity|constructor|]. cbn.
    eapply (shared_step _ _ 0); [reflexivity|constructor|]. cbn. eapply (shared_step _ _ 1); [reflexivity|constructor|]. cbn.
    eapply (shared_step _ _ 1); [reflexivity|constructor|]. cbn. eapply (shared_step _ _ 1); [reflexivity|constructor|]. cbn.
    eapply (shared_step _ _ 1); [reflexivity|constructor|]. apply shared_done.
  - cbn. now left.
Qed.
(** Two goroutines with an Exec of the caller's; two without, one of which installs the default
    while the other has already found it missing. *)
Example C86_nonvacuous : (exists uses m' qs, goroutines TypeFirst [api_calls TypeFirst [true]; api_calls TypeFirst [false; true]] /\
    shared [api_calls TypeFirst [true]; api_calls TypeFirst [false; true]] (made_with 7 5) uses m' qs /\ uses = [(0, (TypeCaller 7, 5)); (1, (TypeCaller 7, 5))]) /\
  (exists uses m' qs, goroutines DataFirst [api_calls DataFirst [true]; api_calls DataFirst [true]] /\
    shared [api_calls DataFirst [true]; api_calls DataFirst [true]] made_without uses m' qs /\ uses = [(0, (TypeDefault, 1)); (0, (TypeDefault, 2))]).
Proof.
  split.
  - eexists _, _, _. split; [intros p [<-|[<-|[]]]; eauto|]. split.
    + do 4 (eapply (shared_step _ _ 0); [reflexivity|constructor|]; cbn). do 4 (eapply (shared_step _ _ 1); [reflexivity|constructor|]; cbn). apply shared_done.
    + reflexivity.
  - eexists _, _, _. split; [intros p [<-|[<-|[]]]; eauto|]. split.
    + do 2 (eapply (shared_step _ _ 0); [reflexivity|constructor|]; cbn). do 2 (eapply (shared_step _ _ 1); [reflexivity|constructor|]; cbn).
      do 5 (eapply (shared_step _ _ 0); [reflexivity|constructor|]; cbn). do 2 (eapply (shared_step _ _ 1); [reflexivity|constructor|]; cbn).
      do 3 (eapply (shared_step _ _ 0); [reflexivity|constructor|]; cbn). apply shared_done.
    + reflexivity.
Qed.
Print Assumptions C86_given_exec.
Print Assumptions C86_once_set.
Print Assumptions C86_one_goroutine.
Print Assumptions C86_pointer_first.
Print Assumptions C86_type_first_refuted.
