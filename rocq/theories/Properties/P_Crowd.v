(** C77: any number of operations of every kind may run at once. *)
From Coq Require Import String Ascii List Bool Arith Lia ZArith.
From Verif Require Import Model.GoStr Model.Errors Model.Version Model.Path Model.Json Model.GoJson Model.Args Model.Types Model.Conf Model.Invoke
  Model.Prog Model.Api
  Spec.VersionSpec Spec.NameSpec Spec.EnvSpec Spec.PathSpec Spec.JsonSpec Spec.ConfSpec Spec.TypesSpec Spec.RunSpec Spec.CacheSpec Spec.HistSpec Spec.MapSpec Spec.CollectSpec Spec.CrowdSpec
  Proofs.StrP Proofs.EnvP Proofs.PathP Proofs.JsonP Proofs.ProgP Proofs.ApiP Proofs.VerbP Proofs.ConfineP Proofs.EntryP Proofs.ListP Proofs.TypesP Proofs.CollectP Proofs.CrowdP
  Properties.P_Api Properties.P_Cache Properties.P_Conc Properties.P_Restart Properties.P_Collect.
Import ListNotations.
Open Scope nat_scope.
Open Scope string_scope.

(** Every operation about one attachment (or none) does what it could have done alone in the
    starting world, and leaves its attachment's entry as if it had run alone. *)
Theorem C77_each_as_if_alone : forall fl c acts w tr w' rest,
  interleaves fl (map (performs c) acts) w tr w' rest -> tidy w -> together c acts w ->
  forall i a, nth_error acts i = Some a -> ~ looks_around a ->
     exists todo w_alone, nth_error rest i = Some todo /\
       goes fl (performs c a) w (own i tr) w_alone todo /\
       (forall v, todo = Ret v -> runs fl (performs c a) w (own i tr) w_alone v) /\
       forall p, at_entry c a p -> sget p w' = sget p w_alone.
Proof.
  intros fl c acts w tr w' rest H T TG i a E L.
  pose proof (crowd_end _ _ _ _ TG _ _ _ _ _ [] H (crowd_start _ _ _ _ T)) as (Each & _). cbn [app] in Each.
  destruct (Each i a E) as (p & Ep & _ & _ & FI). destruct (FI L) as (u & Go & _ & AG).
  exists p, u. split; [exact Ep|]. split; [exact Go|]. split; [intros v ->; now apply goes_runs|]. exact AG.
Qed.
(** Of the other files, only entries of attachments that were recorded at the start, and that one of
    the collections is to collect, can have changed, and those are gone. *)
Theorem C77_only_the_stale_go : forall fl c acts w tr w' rest,
  interleaves fl (map (performs c) acts) w tr w' rest -> tidy w -> together c acts w ->
  forall p, (forall a, In a acts -> ~ at_entry c a p) ->
    sget p w' = sget p w \/ (doomed c acts w p /\ sget p w' = None).
Proof.
  intros fl c acts w tr w' rest H T TG.
  pose proof (crowd_end _ _ _ _ TG _ _ _ _ _ [] H (crowd_start _ _ _ _ T)) as (_ & U & _). exact U.
Qed.
(** Whatever a collection runs is a GC request, or a DEL with the parameters of an attachment that
    was recorded at the start and that it is to collect. *)
Theorem C77_only_the_stale_deleted : forall fl c acts w tr w' rest,
  interleaves fl (map (performs c) acts) w tr w' rest -> tidy w -> together c acts w ->
  forall i l args, nth_error acts i = Some (Gc l args) -> forall x, In x (calls (own i tr)) ->
    getenv (call_env x) "CNI_COMMAND" = "GC" \/
    exists a rt, to_collect c l args w a /\ params_of a rt /\ protocol_env c "DEL" rt (call_env x).
Proof.
  intros fl c acts w tr w' rest H T TG i l args E x J. unfold calls in J. apply in_flat_map in J as ([o r] & J & C).
  pose proof (crowd_did _ _ _ _ TG _ _ _ E _ _ _ _ _ [] H (crowd_start _ _ _ _ T) _ _ J) as Q.
  destruct o; try (destruct C; fail). destruct r; try (destruct C; fail). destruct C as [<-|[]]. cbn [call_env].
  destruct Q as [Q|(a & rt & (R & _) & P & Q)]; [now left|right; now exists a, rt].
Qed.
(** If one of the collections succeeds (and file operations do not fail), every attachment that was
    recorded at the start and that it is to collect is gone, whatever the others did meanwhile. *)
Theorem C77_all_the_stale_go : forall c acts w tr w' rest,
  interleaves false (map (performs c) acts) w tr w' rest -> tidy w -> together c acts w ->
  forall i l args v, nth_error acts i = Some (Gc l args) -> nl_disable_gc l = false -> nth_error rest i = Some (Ret (Ok v)) ->
  forall n a rt, to_list c "" w n a -> stale l args a -> params_of a rt -> named (nl_name l) rt ->
    entry_path c (nl_name l) rt = results_dir c ++ "/" ++ n ->
    sget (entry_path c (nl_name l) rt) w' = None.
Proof.
  intros c acts w tr w' rest H T TG i l args v Ei GC E n a rt TL ST P NM EP.
  assert (rt = rt_of_attachment a) as ->.
  { destruct P as (A1 & A2 & A3 & A4 & A5 & A6). destruct rt. cbn in *. subst. reflexivity. }
  pose proof TL as (F & _ & d & G & D & _). rewrite EP.
  destruct (sget (results_dir c ++ "/" ++ n) w') as [d'|] eqn:X; [|reflexivity]. exfalso.
  assert (ST' : sget (results_dir c ++ "/" ++ n) w' <> None) by congruence.
  assert (E0 : nth_error (map (performs c) acts) i = Some (performs c (Gc l args))) by (now rewrite nth_error_map, Ei).
  destruct (crowd_stuck c acts w l args i TG Ei n d a F D ST EP G _ _ _ _ _ [] _ _ H (crowd_start _ _ _ _ T) ST' E0 (gs_gc c l args n d a F D ST EP NM GC)) as (g' & Eg & GD).
  rewrite E in Eg. injection Eg as <-. inversion GD as [z N|]; subst. now apply (N v).
Qed.
(** A listing that succeeds shows, in the order of the file names and no file twice, only
    attachments recorded at the start or being added, each completely: no half-written record. *)
Theorem C77_listing_shows_no_more : forall fl c acts w tr w' rest,
  interleaves fl (map (performs c) acts) w tr w' rest -> tidy w -> together c acts w ->
  forall i id v, nth_error acts i = Some (Attachments id) -> nth_error rest i = Some (Ret (Ok v)) ->
  exists pairs, v = VAttachments (map snd pairs) /\ ascending (map fst pairs) /\
    forall n a, In (n, a) pairs -> may_list c acts w id n a.
Proof.
  intros fl c acts w tr w' rest H T TG i id v Ei E.
  pose proof (crowd_end _ _ _ _ TG _ _ _ _ _ [] H (crowd_start _ _ _ _ T)) as (Each & _). destruct (Each i _ Ei) as (p & Ep & _ & GL & _).
  rewrite E in Ep. injection Ep as <-. specialize (GL id eq_refl). inversion GL as [z (LS & _)|]; subst. destruct (LS v eq_refl) as (pairs & -> & AS & SO & _).
  exists pairs. split; [reflexivity|]. split; [exact AS|]. intros n a J. destruct (SO n a J) as (F & NF & [(_ & _ & d & G & D & _)|(b & Jb & A & R)] & ID).
  - left. split; [exact F|]. split; [exact NF|]. now exists d.
  - right. now exists b.
Qed.
(** If file operations do not fail, neither does the listing, and it shows every attachment that was
    recorded at the start and that no operation concerns. *)
Theorem C77_listing_shows_no_less : forall c acts w tr w' rest,
  interleaves false (map (performs c) acts) w tr w' rest -> tidy w -> together c acts w ->
  forall i id r, nth_error acts i = Some (Attachments id) -> nth_error rest i = Some (Ret r) ->
  exists atts, r = Ok (VAttachments atts) /\
    forall n a, to_list c id w n a -> left_alone c acts w (results_dir c ++ "/" ++ n) -> In a atts.
Proof.
  intros c acts w tr w' rest H T TG i id r Ei E.
  pose proof (crowd_end _ _ _ _ TG _ _ _ _ _ [] H (crowd_start _ _ _ _ T)) as (Each & _). destruct (Each i _ Ei) as (p & Ep & _ & GL & _).
  rewrite E in Ep. injection Ep as <-. specialize (GL id eq_refl). inversion GL as [z (LS & OK)|]; subst. destruct (OK eq_refl) as (v & ->). destruct (LS v eq_refl) as (pairs & -> & AS & _ & CO).
  exists (map snd pairs). split; [reflexivity|]. intros n a (F & NF & d & G & D & ID) LA. apply in_map_iff. exists (n, a). split; [reflexivity|].
  apply (CO eq_refl n d a); [|exact NF|exact D|exact ID]. split; [exact F|]. now split.
Qed.

(** Attachments of c1 and c2 are recorded.  Two collections that are told c1 and c3 are valid and a
    listing run together with the ADD of c3 and CHECK of c1.  All succeed; c2 was collected; the
    listing, which read the entry of c3 while it was being written, shows c1 only. *)
Definition H_acts : list action := [Gc X_list G_args; AddList X_list (X_cid "c3"); CheckList X_list X_rt; Attachments ""; Gc X_list G_args].
Definition H_sched : list nat := (repeat 1 8 ++ [0; 0; 4; 4; 3; 4; 0; 0] ++ repeat 4 12 ++ repeat 3 4 ++ List.concat (repeat [0; 1; 2; 3; 4] 30))%list.
Lemma H_together : together X_cni H_acts Y_world.
Proof.
  assert (E3 : forall p, at_entry X_cni (AddList X_list (X_cid "c3")) p -> p = "/c/results/net-c3-eth0").
  { intros p (name & rt & AB & _ & ->). cbn [about] in AB. injection AB as <- <-. vm_compute. reflexivity. }
  assert (E1 : forall p, at_entry X_cni (CheckList X_list X_rt) p -> p = "/c/results/net-c1-eth0").
  { intros p (name & rt & AB & _ & ->). cbn [about] in AB. injection AB as <- <-. vm_compute. reflexivity. }
  assert (E0 : forall a p, In a H_acts -> at_entry X_cni a p -> a = AddList X_list (X_cid "c3") \/ a = CheckList X_list X_rt).
  { intros a p [<-|[<-|[<-|[<-|[<-|[]]]]]] (name & rt & AB & _); auto; discriminate. }
  split; [|split; [|split]].
  - intros i j a b p NE Ei Ej A B.
    destruct i as [|[|[|[|[|i]]]]]; cbn in Ei; try (destruct i; discriminate); injection Ei as <-; try (destruct A as (nm & rt & AB & _); discriminate);
      (destruct j as [|[|[|[|[|j]]]]]; cbn in Ej; try (destruct j; discriminate); injection Ej as <-; try (destruct B as (nm & rt & AB & _); discriminate)); try congruence.
    + apply E3 in A. apply E1 in B. congruence.
    + apply E1 in A. apply E3 in B. congruence.
  - intros a p J A (l & args & Jg & (b & rt & (n & TL & (S1 & S2)) & P & ->)).
    assert (l = X_list /\ args = G_args) as [-> ->] by (destruct Jg as [X|[X|[X|[X|[X|[]]]]]]; try discriminate; injection X as <- <-; now split).
    apply G_two in TL as [[C1 C2]|C].
    + apply (S2 _ eq_refl). rewrite C1, C2. now left.
    + subst b. assert (Y : entry_path X_cni (nl_name X_list) rt = "/c/results/net-c2-eth0").
      { unfold entry_path, entry_name, cache_root. destruct P as (P1 & P2 & P3 & P4 & P5 & P6). rewrite P1, P3. reflexivity. }
      destruct (E0 _ _ J A) as [->| ->]; [apply E3 in A|apply E1 in A]; rewrite Y in A; discriminate.
  - intros a [<-|[<-|[<-|[<-|[<-|[]]]]]]; try exact Logic.I. split; [discriminate|exact G_carried].
  - intros l args a name rt Jg J IA AB.
    assert (l = X_list /\ args = G_args) as [-> ->] by (destruct Jg as [X|[X|[X|[X|[X|[]]]]]]; try discriminate; injection X as <- <-; now split).
    destruct J as [<-|[<-|[<-|[<-|[<-|[]]]]]]; try destruct IA. cbn [about] in AB. injection AB as <- <-.
    right. eexists. split; [reflexivity|]. right. now left.
Qed.
Notation H_run := (weave X_oracle H_sched (map (performs X_cni) H_acts) Y_world) (only parsing).
Definition H_good (x : list (nat * event) * world * list (prog (res value))) : bool :=
  match x with
  | (tr, w', [Ret (Ok _); Ret (Ok _); Ret (Ok _); Ret (Ok (VAttachments [a])); Ret (Ok _)]) =>
      String.eqb (at_container a) "c1" && keys_are ["/c/results/net-c1-eth0"; "/c/results/net-c3-eth0"] w' &&
      existsb (read_empty "/c/results/net-c3-eth0") (own 3 tr)
  | _ => false
  end.
Example C77_nonvacuous : exists tr w' v0 v1 v2 v3 v4,
  interleaves false (map (performs X_cni) H_acts) Y_world tr w' [Ret (Ok v0); Ret (Ok v1); Ret (Ok v2); Ret (Ok (VAttachments [v3])); Ret (Ok v4)] /\
  tidy Y_world /\ together X_cni H_acts Y_world /\ at_container v3 = "c1" /\
  map fst Y_world = ["/c/results/net-c1-eth0"; "/c/results/net-c2-eth0"] /\ map fst w' = ["/c/results/net-c1-eth0"; "/c/results/net-c3-eth0"] /\
  In (OpRead "/c/results/net-c3-eth0", RData (Some "")) (own 3 tr) /\
  to_list X_cni "" Y_world "net-c2-eth0" Y_att /\ stale X_list G_args Y_att.
Proof.
  assert (K : H_good H_run = true) by (vm_compute; reflexivity).
  destruct H_run as [[tr w'] qs] eqn:E. pose proof (weave_interleaves _ _ X_tame _ _ _ _ _ _ E) as R. clear E. cbn [H_good] in K.
  destruct qs as [|[[v0|e|]|o k] qs]; try discriminate. destruct qs as [|[[v1|e|]|o k] qs]; try discriminate. destruct qs as [|[[v2|e|]|o k] qs]; try discriminate.
  destruct qs as [|[[[| | | |[|v3 [|]]|]|e|]|o k] qs]; try discriminate. destruct qs as [|[[v4|e|]|o k] qs]; try discriminate. destruct qs; try discriminate.
  apply andb_prop in K as [K K3]. apply andb_prop in K as [K1 K2]. apply String.eqb_eq in K1. apply keys_are_eq in K2. apply read_empty_in in K3.
  exists tr, w', v0, v1, v2, v3, v4. split; [exact R|]. clear R. destruct Y_good as [T _]. split; [exact T|]. split; [exact H_together|]. split; [exact K1|]. split; [reflexivity|].
  split; [exact K2|]. split; [exact K3|]. split; [exact Y_listed|]. split; [reflexivity|].
  intros valid V. injection V as <-. intros [X|[X|[]]]; discriminate.
Qed.

Print Assumptions C77_each_as_if_alone.
Print Assumptions C77_only_the_stale_go.
Print Assumptions C77_only_the_stale_deleted.
Print Assumptions C77_all_the_stale_go.
Print Assumptions C77_listing_shows_no_more.
Print Assumptions C77_listing_shows_no_less.
