(** C76: garbage collection may run while other operations are under way. *)
From Coq Require Import String Ascii List Bool Arith Lia ZArith.
From Verif Require Import Model.GoStr Model.Errors Model.Version Model.Path Model.Json Model.GoJson Model.Args Model.Types Model.Conf Model.Invoke
  Model.Prog Model.Api
  Spec.VersionSpec Spec.NameSpec Spec.EnvSpec Spec.PathSpec Spec.JsonSpec Spec.ConfSpec Spec.TypesSpec Spec.RunSpec Spec.CacheSpec Spec.HistSpec Spec.MapSpec Spec.CollectSpec
  Proofs.StrP Proofs.EnvP Proofs.PathP Proofs.JsonP Proofs.ProgP Proofs.ApiP Proofs.VerbP Proofs.ConfineP Proofs.EntryP Proofs.ListP Proofs.TypesP Proofs.CollectP
  Properties.P_Api Properties.P_Cache Properties.P_Conc Properties.P_Restart.
Import ListNotations.
Open Scope nat_scope.
Open Scope string_scope.

(** In any interleaving with a collection (thread 0), even with failing file operations, every
    other operation does what it could have done alone in the starting world, and leaves its
    attachment's entry as if it had run alone. *)
Theorem C76_others_as_if_alone : forall fl c l args acts w tr w' rest,
  interleaves fl (map (performs c) (Gc l args :: acts)) w tr w' rest -> tidy w -> alongside c l args acts w ->
  forall i a, nth_error acts i = Some a ->
     exists todo w_alone, nth_error rest (S i) = Some todo /\
       goes fl (performs c a) w (own (S i) tr) w_alone todo /\
       (forall v, todo = Ret v -> runs fl (performs c a) w (own (S i) tr) w_alone v) /\
       forall p, at_entry c a p -> sget p w' = sget p w_alone.
Proof.
  intros fl c l args acts w tr w' rest H T AL i a E.
  pose proof (here_end _ _ _ _ _ _ AL _ _ _ _ _ [] H (here_start _ _ _ _ _ _ T AL)) as (_ & Each & _). cbn [app] in Each.
  destruct (Each i a E) as (p & u & Ep & Go & _ & AG). exists p, u. split; [exact Ep|]. split; [exact Go|]. split; [intros v ->; now apply goes_runs|]. exact AG.
Qed.
(** Of the other files, only entries of attachments that were recorded and stale at the start can
    have changed, and those are gone. *)
Theorem C76_only_the_stale_go : forall fl c l args acts w tr w' rest,
  interleaves fl (map (performs c) (Gc l args :: acts)) w tr w' rest -> tidy w -> alongside c l args acts w ->
  forall p, (forall a, In a acts -> ~ at_entry c a p) ->
    sget p w' = sget p w \/ (condemned c l args w p /\ sget p w' = None).
Proof.
  intros fl c l args acts w tr w' rest H T AL.
  pose proof (here_end _ _ _ _ _ _ AL _ _ _ _ _ [] H (here_start _ _ _ _ _ _ T AL)) as (_ & _ & U & _). exact U.
Qed.
(** And no plugin is asked by the collection to delete anything else: whatever it runs is a GC
    request, or a DEL with the parameters of an attachment that was recorded and stale at the start. *)
Theorem C76_only_the_stale_deleted : forall fl c l args acts w tr w' rest,
  interleaves fl (map (performs c) (Gc l args :: acts)) w tr w' rest -> tidy w -> alongside c l args acts w ->
  forall x, In x (calls (own 0 tr)) ->
    getenv (call_env x) "CNI_COMMAND" = "GC" \/
    exists a rt, to_collect c l args w a /\ params_of a rt /\ protocol_env c "DEL" rt (call_env x).
Proof.
  intros fl c l args acts w tr w' rest H T AL x J. unfold calls in J. apply in_flat_map in J as ([o r] & J & C).
  pose proof (here_did _ _ _ _ _ _ AL _ _ _ _ _ [] H (here_start _ _ _ _ _ _ T AL) _ _ J) as Q.
  destruct o; try (destruct C; fail). destruct r; try (destruct C; fail). destruct C as [<-|[]]. cbn [call_env].
  destruct Q as [Q|(a & rt & (R & _) & P & Q)]; [now left|right; now exists a, rt].
Qed.
(** If the collection succeeds (and file operations do not fail), every attachment that was
    recorded and stale at the start is gone, whatever the others did meanwhile. *)
Theorem C76_all_the_stale_go : forall c l args acts w tr w' rest v,
  interleaves false (map (performs c) (Gc l args :: acts)) w tr w' rest -> tidy w -> alongside c l args acts w ->
  nl_disable_gc l = false -> nth_error rest 0 = Some (Ret (Ok v)) ->
  forall n a rt, to_list c "" w n a -> stale l args a -> params_of a rt -> named (nl_name l) rt ->
    entry_path c (nl_name l) rt = results_dir c ++ "/" ++ n ->
    sget (entry_path c (nl_name l) rt) w' = None.
Proof.
  intros c l args acts w tr w' rest v H T AL GC E n a rt TL ST P NM EP.
  assert (rt = rt_of_attachment a) as ->.
  { destruct P as (A1 & A2 & A3 & A4 & A5 & A6). destruct rt. cbn in *. subst. reflexivity. }
  pose proof TL as (F & _ & d & G & D & _). rewrite EP.
  destruct (sget (results_dir c ++ "/" ++ n) w') as [d'|] eqn:X; [|reflexivity]. exfalso.
  pose proof (here_start false _ _ _ _ _ T AL) as HS.
  assert (ST' : sget (results_dir c ++ "/" ++ n) w' <> None) by congruence.
  destruct (stuck c l args acts w AL n d a F D ST EP G _ _ _ _ _ [] _ _ H HS ST' eq_refl (gs_gc c l args n d a F D ST EP NM GC)) as (g' & Eg & GD).
  rewrite E in Eg. injection Eg as <-. inversion GD as [z N|]; subst. now apply (N v).
Qed.

(** A scheduler for examples that passes over threads that are done. *)
Fixpoint weave {A} (orc : oracle) (sched : list nat) (ps : list (prog A)) (w : world) : list (nat * event) * world * list (prog A) :=
  match sched with
  | [] => ([], w, ps)
  | i :: sched' =>
      match nth_error ps i with
      | Some (Do o k) =>
          let (r, w1) := respond orc 0 w o in
          let '(tr, w2, qs) := weave orc sched' (set_nth i (k r) ps) w1 in ((i, (o, r)) :: tr, w2, qs)
      | _ => weave orc sched' ps w
      end
  end.
Lemma weave_interleaves A orc : tame orc -> forall sched (ps : list (prog A)) w tr w' qs,
  weave orc sched ps w = (tr, w', qs) -> interleaves false ps w tr w' qs.
Proof.
  intros T. induction sched as [|i sched IH]; intros ps w tr w' qs E; cbn in E.
  - injection E as <- <- <-. constructor.
  - destruct (nth_error ps i) as [[a|o k]|] eqn:Ei; try (now apply IH).
    destruct (respond orc 0 w o) as [r w1] eqn:Er. destruct (weave _ _ _ w1) as [[t w2] q] eqn:Es.
    injection E as <- <- <-. eapply ILStep; [exact Ei| |apply IH; exact Es].
    pose proof (respond_answer orc 0 w o T) as An. rewrite Er in An. exact An.
Qed.
(** Attachments of c1 and c2 are recorded.  A collection that is told c1 and c3 are valid runs
    together with the ADD of c3 and the DEL of c1; it reads the entry of c3 while that is being
    written.  All three succeed; only c2 was collected. *)
Definition G_args : option gc_args := Some (Some [{| ga_container := "c1"; ga_ifname := "eth0" |}; {| ga_container := "c3"; ga_ifname := "eth0" |}]).
Definition G_acts : list action := [AddList X_list (X_cid "c3"); DelList X_list X_rt].
Definition G_sched : list nat := (repeat 1 8 ++ repeat 0 5 ++ List.concat (repeat [0; 1; 2] 40))%list.
Lemma G_carried : carried "net" (X_cid "c3").
Proof.
  split; [|exists []; apply (C28_capability_arguments (X_cid "c3")); [constructor|split; [exact Logic.I|split; exact Logic.I]]].
  unfold texts_ok. repeat (split; [apply ascii_wft; reflexivity|]). constructor.
Qed.
Lemma G_two n a : to_list X_cni "" Y_world n a -> (at_container a = "c1" /\ at_ifname a = "eth0") \/ a = Y_att.
Proof.
  intros (_ & _ & d & G & D & _). assert (X : attachment_of "" d = Some a) by (apply attachment_of_iff; auto). clear D.
  apply sget_In in G. unfold Y_world in G. destruct G as [G|[G|[]]]; injection G as _ <-.
  - left. vm_compute in X. injection X as <-. now split.
  - right. vm_compute in X. injection X as <-. reflexivity.
Qed.
Lemma G_alongside : alongside X_cni X_list G_args G_acts Y_world.
Proof.
  assert (ENT : forall a p, In a G_acts -> at_entry X_cni a p -> p = "/c/results/net-c3-eth0" \/ p = "/c/results/net-c1-eth0").
  { intros a p J (name & rt & AB & _ & ->). destruct J as [<-|[<-|[]]]; cbn [about] in AB; injection AB as <- <-; [left|right]; vm_compute; reflexivity. }
  split; [intros a [<-|[<-|[]]]; exact (fun x => x)|]. split; [|split].
  - assert (E3 : forall p, at_entry X_cni (AddList X_list (X_cid "c3")) p -> p = "/c/results/net-c3-eth0").
    { intros p (name & rt & AB & _ & ->). cbn [about] in AB. injection AB as <- <-. vm_compute. reflexivity. }
    assert (E1 : forall p, at_entry X_cni (DelList X_list X_rt) p -> p = "/c/results/net-c1-eth0").
    { intros p (name & rt & AB & _ & ->). cbn [about] in AB. injection AB as <- <-. vm_compute. reflexivity. }
    intros i j a b p N Ei Ej A B. destruct i as [|[|i]]; cbn in Ei; [| |destruct i; discriminate]; injection Ei as <-; (destruct j as [|[|j]]; cbn in Ej; [| |destruct j; discriminate]); injection Ej as <-; try congruence.
    + apply E3 in A. apply E1 in B. congruence.
    + apply E1 in A. apply E3 in B. congruence.
  - intros a p J A (b & rt & (n & TL & (S1 & S2)) & P & ->). apply G_two in TL as [[C1 C2]|C].
    + apply (S2 _ eq_refl). rewrite C1, C2. now left.
    + subst b. assert (Y : entry_path X_cni (nl_name X_list) rt = "/c/results/net-c2-eth0").
      { unfold entry_path, entry_name, cache_root. destruct P as (P1 & P2 & P3 & P4 & P5 & P6). rewrite P1, P3. reflexivity. }
      destruct (ENT a _ J A) as [X|X]; rewrite Y in X; discriminate.
  - intros a name rt J IA AB. destruct J as [<-|[<-|[]]]; [|destruct IA]. cbn [about] in AB. injection AB as <- <-. split; [|split; [discriminate|exact G_carried]].
    right. eexists. split; [reflexivity|]. right. now left.
Qed.
Notation G_run := (weave X_oracle G_sched (map (performs X_cni) (Gc X_list G_args :: G_acts)) Y_world) (only parsing).
(** What is to be seen of that run, as a test (the proof term of a computation in the goal is small). *)
Definition keys_are (l : list string) (w : world) : bool := if list_eq_dec string_dec (map fst w) l then true else false.
Definition read_empty (p : string) (e : event) : bool :=
  match e with (OpRead q, RData (Some "")) => String.eqb q p | _ => false end.
Definition G_good (x : list (nat * event) * world * list (prog (res value))) : bool :=
  match x with
  | (tr, w', [Ret (Ok _); Ret (Ok _); Ret (Ok _)]) =>
      keys_are ["/c/results/net-c3-eth0"] w' && existsb (read_empty "/c/results/net-c3-eth0") (own 0 tr)
  | _ => false
  end.
Lemma keys_are_eq l w : keys_are l w = true -> map fst w = l.
Proof. unfold keys_are. destruct (list_eq_dec _ _ _); [auto|discriminate]. Qed.
Lemma read_empty_in p tr : existsb (read_empty p) tr = true -> In (OpRead p, RData (Some "")) tr.
Proof.
  intros H. apply existsb_exists in H as ([o r] & J & H). unfold read_empty in H. destruct o; try discriminate. destruct r as [|[[|]|]| | |]; try discriminate.
  apply String.eqb_eq in H. subst. exact J.
Qed.
Example C76_nonvacuous : exists tr w' v1 v2 v3,
  interleaves false (map (performs X_cni) (Gc X_list G_args :: G_acts)) Y_world tr w' [Ret (Ok v1); Ret (Ok v2); Ret (Ok v3)] /\
  tidy Y_world /\ alongside X_cni X_list G_args G_acts Y_world /\ nl_disable_gc X_list = false /\
  map fst Y_world = ["/c/results/net-c1-eth0"; "/c/results/net-c2-eth0"] /\ map fst w' = ["/c/results/net-c3-eth0"] /\
  In (OpRead "/c/results/net-c3-eth0", RData (Some "")) (own 0 tr) /\
  to_list X_cni "" Y_world "net-c2-eth0" Y_att /\ stale X_list G_args Y_att.
Proof.
  assert (K : G_good G_run = true) by (vm_compute; reflexivity).
  destruct G_run as [[tr w'] qs] eqn:E. pose proof (weave_interleaves _ _ X_tame _ _ _ _ _ _ E) as R. clear E. cbn [G_good] in K.
  destruct qs as [|[[v1|e|]|o k] qs]; try discriminate. destruct qs as [|[[v2|e|]|o k] qs]; try discriminate. destruct qs as [|[[v3|e|]|o k] qs]; try discriminate. destruct qs; try discriminate.
  apply andb_prop in K as [K1 K2]. apply keys_are_eq in K1. apply read_empty_in in K2.
  exists tr, w', v1, v2, v3. split; [exact R|]. clear R. destruct Y_good as [T _]. split; [exact T|]. split; [exact G_alongside|]. split; [reflexivity|]. split; [reflexivity|].
  split; [exact K1|]. split; [exact K2|]. split; [exact Y_listed|]. split; [reflexivity|].
  intros valid V. injection V as <-. intros [X|[X|[]]]; discriminate.
Qed.
(** An ADD of an attachment the caller of the collection does not know is not safe: it succeeds,
    and the attachment is deleted behind its back. *)
Theorem C76_unknown_attachment_refuted : exists tr w' v1 r,
  interleaves false (map (performs X_cni) [Gc X_list (Some (Some [])); AddList X_list (X_cid "c3")]) [] tr w' [Ret (Ok v1); Ret (Ok (VResult (Some r)))] /\
  w' = [] /\ exists x, In x (calls (own 0 tr)) /\ protocol_env X_cni "DEL" (X_cid "c3") (call_env x).
Proof.
  destruct (weave X_oracle (repeat 1 9 ++ repeat 0 20)%list (map (performs X_cni) [Gc X_list (Some (Some [])); AddList X_list (X_cid "c3")]) []) as [[tr w'] qs] eqn:E.
  pose proof (weave_interleaves _ _ X_tame _ _ _ _ _ _ E) as R. vm_compute in E. injection E as <- <- <-.
  eexists _, _, _, _. split; [exact R|]. clear R. split; [reflexivity|]. eexists. split; [left; reflexivity|]. now repeat split.
Qed.

Print Assumptions C76_others_as_if_alone.
Print Assumptions C76_only_the_stale_go.
Print Assumptions C76_only_the_stale_deleted.
Print Assumptions C76_all_the_stale_go.
Print Assumptions C76_unknown_attachment_refuted.
