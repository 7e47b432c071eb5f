(** C92: deleting what was added leaves nothing behind. *)
From Coq Require Import String Ascii List Bool Arith Lia.
From Verif Require Import Model.GoStr Model.Errors Model.Version Model.Path Model.Json Model.GoJson Model.Types Model.Conf Model.Invoke
  Model.Prog Model.Api Spec.NameSpec Spec.VersionSpec Spec.RunSpec Spec.CacheSpec Spec.HistSpec Spec.MapSpec Spec.CleanSpec
  Proofs.StrP Proofs.ProgP Proofs.ApiP Proofs.VerbP Proofs.ConfineP Proofs.CrashP Properties.P_Api Properties.P_Single Properties.P_Cache Properties.P_Race.
Import ListNotations.
Open Scope nat_scope.
Open Scope string_scope.

Lemma run_elsewhere fl c a w tr w' v q : runs fl (performs c a) w tr w' v -> ~ looks_around a -> ~ at_entry c a q -> sget q w' = sget q w.
Proof. intros R L N. eapply (runs_confined _ (fun p => at_entry c a p)); [exact R|now apply cf_performs|exact N]. Qed.
Lemma troubled_elsewhere c h w w1 q : troubled c h w w1 -> Forall (fun a => ~ looks_around a) h ->
  (forall a, In a h -> ~ at_entry c a q) -> sget q w1 = sget q w.
Proof.
  induction 1 as [w|a h w tr w1 v w2 R H IH|a h w tr w1 w2 R H IH]; intros L N; [reflexivity| |]; inversion L as [|? ? LA LH]; subst;
    (rewrite IH; [|exact LH|intros b I; apply N; now right]).
  - eapply run_elsewhere; [exact R|exact LA|apply N; now left].
  - eapply (crashes_confined _ (fun p => at_entry c a p)); [exact R|now apply cf_performs|apply N; now left].
Qed.
Lemma del_looks a : is_del a -> ~ looks_around a.
Proof. destruct a; intros D L; try destruct D; destruct L. Qed.
(** A successful DEL leaves its entry empty. *)
Lemma del_empties c a w tr w' x q : runs false (performs c a) w tr w' (Ok x) -> is_del a -> at_entry c a q -> sget q w' = None.
Proof.
  intros R D (name & rt & AB & NM & ->). destruct a as [| |l rt0| | | | |n rt0| | | | | | | |]; try destruct D; cbn [about] in AB; injection AB as <- <-;
    cbn [performs] in R; unfold returning in R; apply runs_bind in R; destruct R as (t1 & w1 & r & t2 & R & R2 & ->); apply runs_ret in R2; destruct R2 as (-> & -> & E);
    destruct r as [[]|e|]; try discriminate.
  - eapply C17_success_removes_the_entry; eassumption.
  - apply C59_del_one in R. destruct R as (_ & _ & G & _). now apply G.
Qed.
Lemma deletions_keep_none c d w w' q : history false c d w w' -> deletions d -> sget q w = None -> sget q w' = None.
Proof.
  induction 1 as [w|a v h w tr w1 w2 R H IH]; intros D G; [exact G|]. inversion D as [|? ? (DA & x & E) DH]; subst. cbn [fst snd] in *. subst v.
  apply IH; [exact DH|]. destruct a as [| |l rt0| | | | |n rt0| | | | | | | |]; try destruct DA;
    cbn [performs] in R; unfold returning in R; apply runs_bind in R; destruct R as (t1 & u & r & t2 & R & R2 & ->); apply runs_ret in R2; destruct R2 as (-> & -> & _).
  - destruct (C17_only_its_own_entry _ _ _ _ _ _ _ _ R) as [->| ->]; [exact G|]. rewrite sget_sdel, G. now destruct (String.eqb q _).
  - destruct (string_dec q (entry_path c (own_name n) rt0)) as [->|NE].
    + destruct (C59_del_one _ _ _ _ _ _ _ _ R) as (_ & _ & G1 & G2 & G3). destruct r as [[]|e|].
      * destruct (in_dec string_dec (entry_path c (own_name n) rt0) (changed t1)) as [I|NI]; [|now rewrite (runs_unchanged _ _ _ _ _ _ _ _ R NI)].
        apply G1; [reflexivity|reflexivity|]. now apply G3 in I.
      * destruct G2 as (-> & _); [discriminate|exact G].
      * destruct G2 as (-> & _); [discriminate|exact G].
    + rewrite (runs_unchanged _ _ _ _ _ _ _ q R); [exact G|]. intros I. destruct (C59_del_one _ _ _ _ _ _ _ _ R) as (_ & _ & _ & _ & G3). destruct (G3 _ I) as (_ & X). contradiction.
Qed.
Lemma deletions_empty c d w w' av q : history false c d w w' -> deletions d -> In av d -> at_entry c (fst av) q -> sget q w' = None.
Proof.
  induction 1 as [w|a v h w tr w1 w2 R H IH]; intros D I AE; [destruct I|]. inversion D as [|? ? (DA & x & E) DH]; subst. cbn [fst snd] in *.
  destruct I as [<-|I]; [|now apply IH]. cbn [fst] in AE. subst v. eapply deletions_keep_none; [exact H|exact DH|]. eapply del_empties; eassumption.
Qed.
Lemma deletions_elsewhere c d w w' q : history false c d w w' -> deletions d -> (forall av, In av d -> ~ at_entry c (fst av) q) -> sget q w' = sget q w.
Proof.
  induction 1 as [w|a v h w tr w1 w2 R H IH]; intros D N; [reflexivity|]. inversion D as [|? ? (DA & _) DH]; subst. cbn [fst] in *.
  rewrite IH; [|exact DH|intros av I; apply N; now right]. eapply run_elsewhere; [exact R|now apply del_looks|]. apply (N (a, v)). now left.
Qed.

(** Whatever happened to the attachments that were added, deleting each of them, in any order, puts
    all files back as they were. *)
Theorem C92_nothing_left : forall c h d w w1 w2, troubled c h w w1 -> Forall (fun a => ~ looks_around a) h ->
  history false c d w1 w2 -> deletions d -> all_deleted c h d ->
  (forall av p, In av d -> at_entry c (fst av) p -> sget p w = None) ->
  forall q, sget q w2 = sget q w.
Proof.
  intros c h d w w1 w2 T L H D A E q.
  assert (K : (exists av, In av d /\ at_entry c (fst av) q) \/ (forall av, In av d -> ~ at_entry c (fst av) q)).
  { destruct (Exists_dec (fun av => at_entry c (fst av) q) d) as [X|X].
    - intros (a & v). cbn [fst]. destruct (about a) as [(name, rt)|] eqn:AB.
      + destruct (string_dec name "") as [->|N1]; [right; intros (n & r & X & (N & _) & _); congruence|].
        destruct (string_dec (rt_container rt) "") as [N2|N2]; [right; intros (n & r & X & (_ & N & _) & _); congruence|].
        destruct (string_dec (rt_ifname rt) "") as [N3|N3]; [right; intros (n & r & X & (_ & _ & N) & _); congruence|].
        destruct (string_dec q (entry_path c name rt)) as [->|N4]; [left; exists name, rt; repeat split; assumption|].
        right; intros (n & r & X & _ & ->). congruence.
      + right. intros (n & r & X & _). congruence.
    - left. apply Exists_exists in X. exact X.
    - right. intros av I AE. apply X. apply Exists_exists. now exists av. }
  destruct K as [(av & I & AE)|N].
  - rewrite (E _ _ I AE). eapply deletions_empty; eassumption.
  - rewrite (deletions_elsewhere _ _ _ _ _ H D N). eapply troubled_elsewhere; [exact T|exact L|].
    intros a I AE. destruct (A a q I AE) as (av & I2 & AE2). exact (N av I2 AE2).
Qed.
(** One attachment: ADD, then DEL as often as it takes, killed or not, until one succeeds. *)
Theorem C92_add_del : forall c l rt n w w2 tr w3, named (nl_name l) rt -> sget (entry_path c (nl_name l) rt) w = None ->
  troubled c (AddList l rt :: repeat (DelList l rt) n) w w2 ->
  runs false (del_network_list c l rt) w2 tr w3 (Ok tt) -> forall q, sget q w3 = sget q w.
Proof.
  intros c l rt n w w2 tr w3 N E T R.
  assert (AB : forall a, In a (AddList l rt :: repeat (DelList l rt) n) -> ~ looks_around a /\ about a = Some (nl_name l, rt)).
  { intros a [<-|I]; [split; [intros []|reflexivity]|]. apply repeat_spec in I. subst a. split; [intros []|reflexivity]. }
  apply (C92_nothing_left c _ [(DelList l rt, Ok VNothing)] w w2 w3 T).
  - apply Forall_forall. intros a I. now apply AB.
  - econstructor; [|constructor]. cbn [performs]. unfold returning. apply runs_bind. exists tr, w3, (Ok tt), []. split; [exact R|]. split; [constructor|now rewrite app_nil_r].
  - constructor; [|constructor]. split; [exact I|]. now exists VNothing.
  - intros a p IN (name & rt' & A & NM & ->). destruct (AB a IN) as (_ & A'). rewrite A in A'. injection A' as -> ->.
    exists (DelList l rt, Ok VNothing). split; [now left|]. exists (nl_name l), rt. auto.
  - intros av p [<-|[]] (name & rt' & A & NM & ->). cbn [fst about] in A. injection A as <- <-. exact E.
Qed.

(** *** A case: the ADD is killed while it writes its entry *)
Lemma crashes_more A (p : prog A) w tr w' : crashes false p w tr w' -> crashes true p w tr w'.
Proof. induction 1; [constructor|now constructor|]. econstructor; [apply answer_more; eassumption|assumption]. Qed.
Definition C_torn : world := snd (tear X_oracle 30 0 (performs X_cni (AddList X_list X_rt)) []).
Example C92_nonvacuous : exists tr, troubled X_cni [AddList X_list X_rt; DelList X_list X_rt] [] C_torn /\ C_torn <> [] /\
  named (nl_name X_list) X_rt /\ runs false (del_network_list X_cni X_list X_rt) C_torn tr [] (Ok tt) /\ List.length (calls tr) = 2.
Proof.
  destruct (interp X_oracle 0 (del_network_list X_cni X_list X_rt) C_torn) as [[v w2] tr] eqn:E. pose proof (interp_run _ _ _ _ _ _ _ X_tame E) as R.
  assert (K : match interp X_oracle 0 (del_network_list X_cni X_list X_rt) C_torn with (v, w, t) => (v, w, List.length (calls t)) end = (Ok tt, [], 2)) by (vm_compute; reflexivity).
  rewrite E in K. injection K as -> -> L.
  exists tr. split.
  - destruct (tear X_oracle 30 0 (performs X_cni (AddList X_list X_rt)) []) as [t w1] eqn:E1. pose proof (tear_crash _ _ _ _ _ _ _ X_tame E1) as C.
    assert (w1 = C_torn) as -> by (unfold C_torn; rewrite E1; reflexivity).
    eapply TKilled; [apply crashes_more; exact C|]. eapply TKilled; [constructor|]. constructor.
  - split; [vm_compute; discriminate|]. split; [repeat split; vm_compute; discriminate|]. split; [exact R|exact L].
Qed.
