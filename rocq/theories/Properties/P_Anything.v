(** C84: whatever runs at once, listings and collections keep to what was recorded. *)
From Coq Require Import String Ascii List Bool Arith Lia ZArith.
From Verif Require Import Model.GoStr Model.Errors Model.Version Model.Path Model.Json Model.GoJson Model.Args Model.Types Model.Conf Model.Invoke
  Model.Prog Model.Api
  Spec.VersionSpec Spec.NameSpec Spec.EnvSpec Spec.PathSpec Spec.JsonSpec Spec.ConfSpec Spec.TypesSpec Spec.RunSpec Spec.CacheSpec Spec.HistSpec Spec.MapSpec Spec.CollectSpec Spec.CrowdSpec Spec.LookSpec Spec.RaceSpec
  Proofs.StrP Proofs.EnvP Proofs.PathP Proofs.JsonP Proofs.JsonRT Proofs.ShapeP Proofs.CacheP Proofs.ProgP Proofs.ApiP Proofs.VerbP Proofs.ConfineP Proofs.EntryP Proofs.FilesP Proofs.ListP Proofs.HistP Proofs.TypesP Proofs.TouchP Proofs.CollectP Proofs.CrowdP Proofs.LookP Proofs.RaceP
  Properties.P_Api Properties.P_Cache Properties.P_Conc Properties.P_Restart Properties.P_Collect Properties.P_Look Properties.P_Race.
Import ListNotations.
Open Scope nat_scope.
Open Scope string_scope.

(** ** Guards along an interleaving *)
Section Along.
Variables (fl : bool) (Inv : list (prog (res value)) -> world -> list (nat * event) -> Prop) (Q : op -> Prop) (K : op -> resp -> Prop) (P : res value -> Prop) (i : nat).
Hypothesis Keeps : forall ps v acc j o k r v1, Inv ps v acc -> nth_error ps j = Some (Do o k) -> happens fl v o r v1 -> Inv (set_nth j (k r) ps) v1 (acc ++ [(j, (o, r))])%list.
Hypothesis Gives : forall ps v acc o r v1, Inv ps v acc -> happens fl v o r v1 -> K o r.
Lemma guarded_along : forall ps v tr v' rest acc g, mingles fl ps v tr v' rest -> Inv ps v acc -> nth_error ps i = Some g -> guarded Q K P g ->
  exists g', nth_error rest i = Some g' /\ guarded Q K P g' /\ forall o r, In (o, r) (own i tr) -> Q o.
Proof.
  intros ps v tr v' rest acc g H. revert acc g. induction H as [ps v|ps v j o k r v1 tr v2 qs E An H IH]; intros acc g X Eg G; [exists g; split; [exact Eg|]; split; [exact G|intros o r []]|].
  pose proof (Keeps _ _ _ _ _ _ _ _ X E An) as X1. destruct (Nat.eq_dec j i) as [->|N].
  - rewrite E in Eg. injection Eg as <-. inversion G as [|o' k' Q1 K1]; subst. destruct (IH _ (k r) X1) as (g' & Eg' & G' & QQ); [eapply nth_set_same; exact E|apply K1; eapply Gives; [exact X|exact An]|].
    exists g'. split; [exact Eg'|]. split; [exact G'|]. intros o' r' J. cbn [own flat_map fst snd] in J. rewrite Nat.eqb_refl in J. destruct J as [J|J]; [injection J as <- <-; exact Q1|eapply QQ; exact J].
  - destruct (IH _ g X1) as (g' & Eg' & G' & QQ); [rewrite nth_set_other by exact N; exact Eg|exact G|]. exists g'. split; [exact Eg'|]. split; [exact G'|].
    intros o' r' J. cbn [own flat_map fst snd] in J. apply Nat.eqb_neq in N. rewrite N in J. eapply QQ; exact J.
Qed.
End Along.
Definition orderly (ps : list (prog (res value))) (v : world) (acc : list (nat * event)) : Prop := tidy v /\ Forall (within clean_op) ps.
Lemma forall_set (ps : list (prog (res value))) Q : forall i p, Forall (within Q) ps -> within Q p -> Forall (within Q) (set_nth i p ps).
Proof.
  induction ps as [|q ps IH]; intros i p F W; [destruct i; constructor|]. apply Forall_cons_iff in F as [F1 F2]. destruct i as [|i]; cbn [set_nth]; constructor; auto.
Qed.
Lemma orderly_step fl ps v acc j o k r v1 : orderly ps v acc -> nth_error ps j = Some (Do o k) -> happens fl v o r v1 -> orderly (set_nth j (k r) ps) v1 (acc ++ [(j, (o, r))])%list.
Proof.
  intros [T F] E An. pose proof (proj1 (Forall_forall _ _) F _ (nth_error_In _ _ E)) as W. inversion W as [|o1 k1 C1 W1]; subst.
  split; [eapply happens_tidy; eassumption|]. now apply forall_set.
Qed.
Lemma orderly_start c acts w : tidy w -> orderly (map (performs c) acts) w [].
Proof. intros T. split; [exact T|]. apply Forall_forall. intros q J. apply in_map_iff in J as (b & <- & _). apply within_clean. Qed.

(** Whatever runs beside it, of whatever attachments, and whatever file operations fail: a collection
    runs the plugins only for GC, or for DEL of an attachment of its network that it was not told is
    valid. *)
Theorem C84_valid_never_deleted : forall fl c acts w tr w' rest i l args x, mingles fl (map (performs c) acts) w tr w' rest -> tidy w ->
  nth_error acts i = Some (Gc l args) -> In x (calls (own i tr)) ->
  getenv (call_env x) "CNI_COMMAND" = "GC" \/
  (getenv (call_env x) "CNI_COMMAND" = "DEL" /\ forall valid, args = Some (Some valid) ->
     ~ In {| ga_container := getenv (call_env x) "CNI_CONTAINERID"; ga_ifname := getenv (call_env x) "CNI_IFNAME" |} valid).
Proof.
  intros fl c acts w tr w' rest i l args x H T E J. unfold calls in J. apply in_flat_map in J as ([o r] & J & C).
  destruct (guarded_along fl orderly (may_do c l args (fun _ => True)) (sees c l args (fun _ => True)) any i (orderly_step fl)) with (ps := map (performs c) acts) (v := w) (tr := tr) (v' := w') (rest := rest) (acc := @nil (nat * event)) (g := performs c (Gc l args)) as (g' & _ & _ & QQ).
  - intros ps v acc o' r' v1 [TV _] [An|(p & d & -> & -> & ->)]; [|exact Logic.I]. destruct An; cbn; auto; [destruct (sget p v); auto|]. intros ->. apply Forall_forall. intros n K. now apply (children_iff c v n TV) in K.
  - exact H.
  - now apply orderly_start.
  - now apply nth_performs.
  - apply gd_gc.
  - specialize (QQ o r J). destruct o; try (destruct C; fail). destruct r; try (destruct C; fail). destruct C as [<-|[]]. cbn [call_env].
    destruct QQ as [Q|(a & rt & (_ & S) & P & Q)]; [now left|right]. destruct Q as (Q1 & Q2 & _ & _ & Q5 & _). split; [exact Q1|]. intros valid V. rewrite Q2, Q5. destruct P as (-> & _ & -> & _). now apply S.
Qed.

(** ** What can be read *)
Section Records.
Variables (c : cni) (acts : list action) (w : world).
Hypothesis CA : forall b, In b acts -> carries b.
Definition known_record (n : string) (a : attachment) : Prop :=
  to_list c "" w n a \/ exists b, In b acts /\ at_entry c b (results_dir c ++ "/" ++ n) /\ recorded_by b a.
Definition busy (ps : list (prog (res value))) (v : world) (acc : list (nat * event)) : Prop := orderly ps v acc /\ forall p, race c acts w p ps v acc.
Lemma busy_step ps v acc j o k r v1 : busy ps v acc -> nth_error ps j = Some (Do o k) -> happens false v o r v1 -> busy (set_nth j (k r) ps) v1 (acc ++ [(j, (o, r))])%list.
Proof. intros [O R] E An. split; [eapply orderly_step; eassumption|]. intros p. eapply race_step; [intros b J _; now apply CA|apply R|exact E|exact An]. Qed.
Lemma busy_start : tidy w -> busy (map (performs c) acts) w [].
Proof. intros T. split; [now apply orderly_start|]. intros p. apply race_start. Qed.
Lemma solo_recorded b t u x p d a : is_add b -> at_entry c b p -> carries b -> runs false (performs c b) w t u (Ok x) -> sget p u = Some d -> describes d a -> recorded_by b a.
Proof.
  intros IA (name & rt & AB & NM & EQ) CB RU X D.
  assert (SV : exists s, saves b (Ok x) = Some s /\ place c s = p /\ about b = Some (sv_name s, sv_rt s) /\
     match b with AddList l _ => sv_config s = nl_bytes l | AddOne n _ => sv_config s = pg_bytes n | _ => True end).
  { destruct b as [l rt0| | | | |n0 rt0| | | | | | | | | |]; try destruct IA; cbn [about] in AB; injection AB as <- <-; cbn [performs] in RU; unfold returning in RU;
      apply runs_bind in RU; destruct RU as (t1 & w1 & y & t2 & _ & R2 & _); apply runs_ret in R2; destruct R2 as (_ & _ & EX); destruct y as [y|e|]; try discriminate; cbn [rmap rbind] in EX; injection EX as ->;
      (eexists; split; [reflexivity|]; split; [symmetry; exact EQ|]; now split). }
  destruct SV as (s & SV & PL & AB' & CFG). destruct (add_saves _ _ _ _ _ _ _ _ RU SV) as (_ & NM' & FP & (dd & ST & GP) & _). rewrite PL, X in GP. injection GP as <-.
  apply (written_recorded b d); [|exact CB|exact D]. exists s, d. split; [exact IA|]. split; [exact AB'|]. split; [exact NM'|]. split; [exact ST|]. split; [exact FP|]. split; [now exists ""; rewrite append_nil_r|exact CFG].
Qed.
Lemma describes_parse d a : describes d a -> parse d <> None.
Proof. intros D P. assert (X : attachment_of "" d = Some a) by (apply attachment_of_iff; auto). unfold attachment_of, unmarshal_cached_info in X. rewrite P in X. discriminate. Qed.
Lemma busy_reads ps v acc n d a : busy ps v acc -> file_name n -> sget (results_dir c ++ "/" ++ n) v = Some d -> describes d a -> known_record n a.
Proof.
  intros [_ R] F G D. destruct (race_readable c acts w _ (fun b J _ => CA b J) _ _ _ _ (R _) G (describes_parse _ _ D)) as [X|(j & b & x & u & E & [IA AE] & _ & RU & X)].
  - left. split; [exact F|]. split; [now left|]. exists d. auto.
  - right. pose proof (nth_error_In _ _ E) as J. exists b. split; [exact J|]. split; [exact AE|]. eapply solo_recorded; try eassumption. now apply CA.
Qed.
Lemma busy_sees l args ps v acc o r v1 : busy ps v acc -> happens false v o r v1 -> sees c l args (fun a => exists n, known_record n a) o r.
Proof.
  intros X [An|(p & d & -> & -> & ->)]; [|exact Logic.I]. destruct An; cbn; auto.
  - destruct (sget p v) as [d|] eqn:E; [|exact Logic.I]. intros n a F -> D _. exists n. eapply busy_reads; eassumption.
  - intros ->. apply Forall_forall. intros n K. destruct X as [[TV _] _]. now apply (children_iff c v n TV) in K.
Qed.
Lemma busy_meets ps v acc o r v1 : busy ps v acc -> happens false v o r v1 -> meets false c known_record (fun _ _ => False) o r.
Proof.
  intros X [An|(p & d & -> & -> & ->)]; [|exact Logic.I]. pose proof X as [[TV _] _]. destruct An as [p|p FF| | | | | | | | | |p|p e CH NE|p e FF| | |]; cbn [meets]; auto; try discriminate.
  - intros n F ->. destruct (sget (results_dir c ++ "/" ++ n) v) as [d|] eqn:E; [|intros _ d []]. split; [intros a D; eapply busy_reads; eassumption|intros _ d' []].
  - intros ->. split; [|split; [apply children_nodup; apply ssorted_nodup, TV|intros n d []]]. apply Forall_forall. intros n K. now apply (children_iff c v n TV) in K.
Qed.
End Records.

(** As long as no file operation fails, a listing under way with anything else succeeds, and shows
    only what was recorded at the start or what one of the ADDs under way records, never a mixture
    and no file twice. *)
Theorem C84_listing : forall c acts w tr w' rest i id r, mingles false (map (performs c) acts) w tr w' rest -> tidy w -> (forall b, In b acts -> carries b) ->
  nth_error acts i = Some (Attachments id) -> nth_error rest i = Some (Ret r) ->
  exists pairs, r = Ok (VAttachments (map snd pairs)) /\ ascending (map fst pairs) /\ forall n a, In (n, a) pairs -> may_list c acts w id n a.
Proof.
  intros c acts w tr w' rest i id r H T CA E ER.
  destruct (guarded_along false (busy c acts w) looks_only (meets false c (known_record c acts w) (fun _ _ => False)) (lists false id (known_record c acts w) (fun _ _ => False)) i (busy_step c acts w CA) (busy_meets c acts w CA)
    _ _ _ _ _ [] _ H (busy_start c acts w T) (nth_performs c _ _ _ E) (gl_list false c id _ _)) as (g' & Eg & G & _).
  rewrite ER in Eg. injection Eg as <-. inversion G as [z (LS & OK)|]; subst. destruct (OK eq_refl) as (v & ->). destruct (LS v eq_refl) as (pairs & -> & AS & SO & _).
  exists pairs. split; [reflexivity|]. split; [exact AS|]. intros n a J. destruct (SO n a J) as (F & NF & [(_ & _ & d & G0 & D & _)|(b & Jb & A & R)] & ID).
  - left. split; [exact F|]. split; [exact NF|]. now exists d.
  - right. now exists b.
Qed.
(** What a collection under way with anything else deletes was recorded at the start, or is recorded
    by one of the ADDs under way; and it is of the collection's network and not declared valid. *)
Theorem C84_collects_only_records : forall c acts w tr w' rest i l args x, mingles false (map (performs c) acts) w tr w' rest -> tidy w -> (forall b, In b acts -> carries b) ->
  nth_error acts i = Some (Gc l args) -> In x (calls (own i tr)) ->
  getenv (call_env x) "CNI_COMMAND" = "GC" \/
  exists n a rt, may_list c acts w "" n a /\ stale l args a /\ params_of a rt /\ protocol_env c "DEL" rt (call_env x).
Proof.
  intros c acts w tr w' rest i l args x H T CA E J. unfold calls in J. apply in_flat_map in J as ([o r] & J & C).
  destruct (guarded_along false (busy c acts w) (may_do c l args (fun a => exists n, known_record c acts w n a)) (sees c l args (fun a => exists n, known_record c acts w n a)) any i (busy_step c acts w CA) (busy_sees c acts w CA l args)
    _ _ _ _ _ [] _ H (busy_start c acts w T) (nth_performs c _ _ _ E) (gd_gc c l args _)) as (g' & _ & _ & QQ).
  specialize (QQ o r J). destruct o; try (destruct C; fail). destruct r; try (destruct C; fail). destruct C as [<-|[]]. cbn [call_env].
  destruct QQ as [Q|(a & rt & ((n & KR) & S) & P & Q)]; [now left|right]. exists n, a, rt. split; [|auto]. destruct KR as [TL|(b & Jb & AE & RB)]; [now left|right; exists b; auto].
Qed.
(** A record that is there at some moment and not at the end was deleted by a DEL of that attachment
    under way, or by a collection whose caller did not declare it valid. *)
Lemma vanished p : forall (ps : list (prog (res value))) w tr w' rest, mingles false ps w tr w' rest -> sget p w <> None -> sget p w' = None -> exists j r, In (j, (OpRemove p, r)) tr.
Proof.
  intros ps w tr w' rest H. induction H as [|ps w j o k r w1 tr w2 rest E An H IH]; intros N1 N2; [contradiction|].
  assert (D : o = OpRemove p \/ sget p w1 <> None).
  { destruct An as [An|(p' & d & -> & -> & ->)]; [|now right]. destruct An; auto; try discriminate.
    - right. rewrite sget_sset. destruct (String.eqb p p0); [discriminate|exact N1].
    - right. unfold overlay. destruct (sget p0 w) eqn:G; [|exact N1]. rewrite sget_sset. destruct (String.eqb p p0); [discriminate|exact N1].
    - destruct (string_dec p0 p) as [->|NE]; [now left|right]. rewrite sget_sdel. destruct (String.eqb_spec p p0); [congruence|exact N1]. }
  destruct D as [->|D]; [exists j, r; now left|]. destruct (IH D N2) as (j' & r' & J). exists j', r'. now right.
Qed.
Lemma ops_within c acts Q i a : within Q (performs c a) -> forall tr w w' rest, mingles false (map (performs c) acts) w tr w' rest -> nth_error acts i = Some a -> forall o r, In (o, r) (own i tr) -> Q o.
Proof.
  intros W tr w w' rest H E. pose proof (nth_performs c _ _ _ E) as EP. revert W EP. generalize (performs c a). induction H as [|ps w j o k r w1 tr w2 rest Ej An H IH]; intros g W EP o' r' J; [destruct J|].
  cbn [own flat_map fst snd] in J. destruct (Nat.eqb_spec j i) as [->|N].
  - rewrite Ej in EP. injection EP as <-. inversion W as [|o1 k1 Q1 W1]; subst. destruct J as [J|J]; [injection J as <- <-; exact Q1|]. eapply IH; [apply W1|eapply nth_set_same; exact Ej|exact J].
  - eapply IH; [exact W|rewrite nth_set_other by exact N; exact EP|exact J].
Qed.
Theorem C84_who_deletes : forall c acts w tr1 u qs tr2 w' rest p, mingles false (map (performs c) acts) w tr1 u qs -> mingles false qs u tr2 w' rest -> tidy w -> (forall b, In b acts -> carries b) ->
  sget p u <> None -> sget p w' = None ->
  (exists b, In b acts /\ is_del b /\ at_entry c b p) \/
  exists l args n a rt, In (Gc l args) acts /\ may_list c acts w "" n a /\ stale l args a /\ params_of a rt /\ p = entry_path c (nl_name l) rt.
Proof.
  intros c acts w tr1 u qs tr2 w' rest p H1 H2 T CA N1 N2. destruct (vanished p _ _ _ _ _ H2 N1 N2) as (j & r & J).
  pose proof (mg_app _ _ _ _ _ _ _ _ _ _ H1 H2) as H. assert (JT : In (j, (OpRemove p, r)) (tr1 ++ tr2)%list) by (apply in_or_app; now right).
  pose proof (proj2 (in_own _ _ _) JT) as JO.
  assert (EJ : exists b, nth_error acts j = Some b).
  { pose proof (race_end c acts w p (fun b J _ => CA b J) _ _ _ _ _ [] H (race_start c acts w p)) as (_ & _ & _ & LT). cbn [app] in LT. specialize (LT _ _ JT). apply nth_error_Some in LT. destruct (nth_error acts j); [eauto|congruence]. }
  destruct EJ as (b & E). pose proof (nth_error_In _ _ E) as Jb. destruct (looks_dec b) as [L|L].
  - destruct b as [| | | | | | | | | | | |l args| |id|]; try destruct L.
    + destruct (guarded_along false (busy c acts w) (may_do c l args (fun a => exists n, known_record c acts w n a)) (sees c l args (fun a => exists n, known_record c acts w n a)) any j (busy_step c acts w CA) (busy_sees c acts w CA l args)
        _ _ _ _ _ [] _ H (busy_start c acts w T) (nth_performs c _ _ _ E) (gd_gc c l args _)) as (g' & _ & _ & QQ).
      destruct (QQ _ _ JO) as (a & rt & ((n & KR) & S) & P & EQ). right. exists l, args, n, a, rt. split; [exact Jb|]. split; [|auto]. destruct KR as [TL|(b & Jb' & AE & RB)]; [now left|right; exists b; auto].
    + exfalso. destruct (guarded_along false (busy c acts w) looks_only (meets false c (known_record c acts w) (fun _ _ => False)) (lists false id (known_record c acts w) (fun _ _ => False)) j (busy_step c acts w CA) (busy_meets c acts w CA)
        _ _ _ _ _ [] _ H (busy_start c acts w T) (nth_performs c _ _ _ E) (gl_list false c id _ _)) as (g' & _ & _ & QQ). exact (QQ _ _ JO).
  - left. exists b. split; [exact Jb|]. exact (ops_within c acts _ j b (wi_performs c b L) _ _ _ _ H E _ _ JO).
Qed.

(** ** The theorems apply *)
(** c1 and c2 are recorded.  A collection that is told c1 is valid, a listing, two ADDs of c3 and a
    DEL of c2 run at once.  The listing shows c1, c2 and c3 as the first ADD records it; the
    collection deletes c2 and c3. *)
Definition Z_args : option gc_args := Some (Some [{| ga_container := "c1"; ga_ifname := "eth0" |}]).
Definition Z_acts : list action :=
  [Gc X_list Z_args; Attachments ""; AddList X_list (R_rt "/nsA" "a"); AddList X_list (R_rt "/nsB" "b"); DelList X_list (X_cid "c2")].
Definition Z_sched : list nat := (repeat 2 9 ++ repeat 3 3 ++ repeat 1 10 ++ repeat 4 3 ++ repeat 0 60 ++ repeat 4 20 ++ repeat 3 20)%list.
Notation Z_run := (weave X_oracle Z_sched (map (performs X_cni) Z_acts) Y_world) (only parsing).
Definition Z_dels (cid : string) (x : call) : bool := String.eqb (getenv (call_env x) "CNI_COMMAND") "DEL" && String.eqb (getenv (call_env x) "CNI_CONTAINERID") cid.
Definition Z_good (x : list (nat * event) * world * list (prog (res value))) : bool :=
  match x with
  | (tr, w', [Ret (Ok _); Ret (Ok (VAttachments [a; b; d])); Ret (Ok _); Ret (Ok _); Ret (Ok _)]) =>
      String.eqb (at_netns d) "/nsA" && existsb (Z_dels "c3") (calls (own 0 tr)) && existsb (Z_dels "c2") (calls (own 0 tr)) &&
      keys_are ["/c/results/net-c1-eth0"; "/c/results/net-c3-eth0"] w'
  | _ => false
  end.
Lemma Z_carries : forall b, In b Z_acts -> carries b.
Proof. intros b [<-|[<-|[<-|[<-|[<-|[]]]]]]; try exact Logic.I; (split; [discriminate|carry]). Qed.
Example C84_nonvacuous : exists tr w' v0 a b d v2 v3 v4 x y,
  interleaves false (map (performs X_cni) Z_acts) Y_world tr w' [Ret (Ok v0); Ret (Ok (VAttachments [a; b; d])); Ret (Ok v2); Ret (Ok v3); Ret (Ok v4)] /\
  tidy Y_world /\ (forall b, In b Z_acts -> carries b) /\ at_netns d = "/nsA" /\
  In x (calls (own 0 tr)) /\ getenv (call_env x) "CNI_COMMAND" = "DEL" /\ getenv (call_env x) "CNI_CONTAINERID" = "c3" /\
  In y (calls (own 0 tr)) /\ getenv (call_env y) "CNI_COMMAND" = "DEL" /\ getenv (call_env y) "CNI_CONTAINERID" = "c2" /\
  map fst Y_world = ["/c/results/net-c1-eth0"; "/c/results/net-c2-eth0"] /\ map fst w' = ["/c/results/net-c1-eth0"; "/c/results/net-c3-eth0"].
Proof.
  assert (K : Z_good Z_run = true) by (vm_compute; reflexivity).
  destruct Z_run as [[tr w'] qs] eqn:E. pose proof (weave_interleaves _ _ X_tame _ _ _ _ _ _ E) as R. clear E. cbn [Z_good] in K.
  destruct qs as [|[[v0|e|]|o k] qs]; try discriminate. destruct qs as [|[[[| | | |[|a [|b [|d [|]]]]|]|e|]|o k] qs]; try discriminate.
  destruct qs as [|[[v2|e|]|o k] qs]; try discriminate. destruct qs as [|[[v3|e|]|o k] qs]; try discriminate. destruct qs as [|[[v4|e|]|o k] qs]; try discriminate. destruct qs; try discriminate.
  apply andb_prop in K as [K K4]. apply andb_prop in K as [K K3]. apply andb_prop in K as [K K2]. apply String.eqb_eq in K. apply keys_are_eq in K4.
  apply existsb_exists in K2 as (x & J1 & K2). apply existsb_exists in K3 as (y & J2 & K3). unfold Z_dels in K2, K3.
  apply andb_prop in K2 as [A1 A2]. apply andb_prop in K3 as [B1 B2]. apply String.eqb_eq in A1, A2, B1, B2.
  exists tr, w', v0, a, b, d, v2, v3, v4, x, y. destruct Y_good as [T _]. split; [exact R|]. split; [exact T|]. split; [exact Z_carries|]. split; [exact K|]. split; [exact J1|]. split; [exact A1|]. split; [exact A2|]. split; [exact J2|]. split; [exact B1|]. split; [exact B2|]. split; [reflexivity|exact K4].
Qed.

Print Assumptions C84_valid_never_deleted.
Print Assumptions C84_listing.
Print Assumptions C84_collects_only_records.
Print Assumptions C84_who_deletes.
