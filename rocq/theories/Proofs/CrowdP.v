(** Any number of operations of every kind at once. *)
From Coq Require Import String List Bool Arith Lia Sorting.Sorted Permutation.
From Verif Require Import Model.GoStr Model.Errors Model.Version Model.Path Model.Json Model.GoJson Model.Args Model.Types Model.Conf Model.Invoke
  Model.Prog Model.Api Spec.NameSpec Spec.VersionSpec Spec.JsonSpec Spec.TypesSpec Spec.PathSpec Spec.RunSpec Spec.CacheSpec Spec.HistSpec Spec.MapSpec Spec.TouchSpec Spec.CollectSpec Spec.CrowdSpec
  Proofs.StrP Proofs.JsonP Proofs.JsonRT Proofs.PathP Proofs.EnvP Proofs.ProgP Proofs.ApiP Proofs.VerbP Proofs.SingleP Proofs.ConfineP Proofs.EntryP Proofs.FilesP Proofs.ListP Proofs.HistP Proofs.CrashP Proofs.TouchP Proofs.CollectP.
Import ListNotations.
Open Scope nat_scope.
Open Scope string_scope.

(** ** The listing among others *)
Section Listing.
Variables (fl : bool) (c : cni) (id : string).
(** [May n a]: file [n] can be read as [a]; [Still n d]: file [n] holds [d] throughout. *)
Variables (May : string -> attachment -> Prop) (Still : string -> string -> Prop).
Definition looks_only (o : op) : Prop :=
  match o with OpReadDir _ | OpRead _ => True | _ => False end.
Definition meets (o : op) (r : resp) : Prop :=
  match o with
  | OpReadDir p => p = results_dir c ->
      match r with
      | RNames (Ok names) => Forall file_name names /\ NoDup names /\ forall n d, Still n d -> In n names
      | RNames (Err e) => fl = false -> is_not_exist e = true /\ forall n d, ~ Still n d
      | _ => False
      end
  | OpRead p => forall n, file_name n -> p = results_dir c ++ "/" ++ n ->
      match r with
      | RData (Some d) => (forall a, describes d a -> May n a) /\ (fl = false -> forall d', Still n d' -> d' = d)
      | RData None => fl = false -> forall d, ~ Still n d
      | _ => False
      end
  | _ => True
  end.
Local Notation gd := (guarded looks_only meets).
Definition finds (names : list string) (atts : list attachment) : Prop :=
  exists pairs, atts = map snd pairs /\ (forall n, In n (map fst pairs) -> In n names) /\
    StronglySorted (fun a b => String.compare a b = Lt) (map fst pairs) /\
    (forall n a, In (n, a) pairs -> name_for id n /\ May n a /\ (id = "" \/ at_container a = id)) /\
    (fl = false -> forall n d a, In n names -> Still n d -> name_for id n -> describes d a -> (id = "" \/ at_container a = id) -> In (n, a) pairs).
Lemma gl_read : forall names, Forall file_name names -> StronglySorted (fun a b => String.compare a b = Lt) names ->
  gd (finds names) (read_attachments (results_dir c) id names).
Proof.
  induction names as [|n names IH]; intros F SS; cbn [read_attachments].
  { constructor. exists []. split; [reflexivity|]. split; [now intros|]. split; [constructor|]. split; [intros n a []|intros _ n d a []]. }
  apply Forall_cons_iff in F as [F1 F]. apply StronglySorted_inv in SS as [SS LT]. rewrite Forall_forall in LT. specialize (IH F SS).
  destruct (name_selected id n) eqn:NS; cbn [negb].
  2:{ eapply gd_weaken; [|exact IH]. intros atts (pairs & -> & I1 & I2 & I3 & I4). exists pairs. split; [reflexivity|]. split; [intros x J; right; auto|]. split; [exact I2|]. split; [exact I3|].
      intros Q x d a [->|J] S NF D A; [|now apply (I4 Q x d)]. apply name_selected_iff in NF. congruence. }
  unfold read_file. cbn [bind]. constructor; [exact I|]. intros r M. cbn [meets] in M. rewrite dir_join in M by exact F1. specialize (M n F1 eq_refl).
  apply name_selected_iff in NS. apply (gd_bind _ _ _ _ (finds names)); [exact IH|]. intros rest (pairs & -> & I1 & I2 & I3 & I4). constructor.
  destruct r as [|[d|]| | |]; try destruct M.
  - destruct (attachment_of id d) as [a|] eqn:A.
    + exists ((n, a) :: pairs). split; [reflexivity|]. pose proof A as A0. apply attachment_of_iff in A0 as [D C]. split; [|split; [|split]].
      * intros x [<-|J]; [now left|right; now apply I1].
      * constructor; [exact I2|]. apply Forall_forall. intros x J. apply LT. now apply I1.
      * intros x b [E|J]; [|now apply I3]. injection E as <- <-. split; [exact NS|]. split; [now apply H|exact C].
      * intros Q x d' b [<-|J] S NF D' C'; [left|right; now apply (I4 Q x d')]. rewrite (H0 Q _ S) in D'.
        assert (X : attachment_of id d = Some b) by (apply attachment_of_iff; now split). congruence.
    + exists pairs. split; [reflexivity|]. split; [intros x J; right; now apply I1|]. split; [exact I2|]. split; [exact I3|].
      intros Q x d' b [<-|J] S NF D' C'; [|now apply (I4 Q x d')]. rewrite (H0 Q _ S) in D'.
      assert (X : attachment_of id d = Some b) by (apply attachment_of_iff; now split). congruence.
  - exists pairs. split; [reflexivity|]. split; [intros x J; right; now apply I1|]. split; [exact I2|]. split; [exact I3|].
    intros Q x d' b [<-|J] S NF D' C'; [|now apply (I4 Q x d')]. now destruct (M Q d').
Qed.
Definition lists (r : res value) : Prop :=
  (forall v, r = Ok v -> exists pairs, v = VAttachments (map snd pairs) /\ ascending (map fst pairs) /\
    (forall n a, In (n, a) pairs -> file_name n /\ name_for id n /\ May n a /\ (id = "" \/ at_container a = id)) /\
    (fl = false -> forall n d a, Still n d -> name_for id n -> describes d a -> (id = "" \/ at_container a = id) -> In (n, a) pairs)) /\
  (fl = false -> exists v, r = Ok v).
Lemma gl_list : gd lists (performs c (Attachments id)).
Proof.
  cbn [performs]. unfold returning. unfold get_cached_attachments. change (join_path [get_cache_dir c runtime_conf_zero; "results"]) with (results_dir c).
  unfold read_dir. cbn [bind]. constructor; [exact I|]. intros r M. cbn [meets] in M. specialize (M eq_refl).
  destruct r as [|d|x| |]; try (destruct M; fail). destruct x as [names|e|]; try (destruct M; fail).
  - destruct M as (F & ND & ST).
    assert (SS : StronglySorted (fun a b => String.compare a b = Lt) (sort_strings names)).
    { apply strictly; [apply sort_strings_sorted|]. eapply Permutation_NoDup; [apply sort_strings_perm|exact ND]. }
    apply (gd_bind _ _ _ _ (fun r => exists atts, r = Ok atts /\ finds (sort_strings names) atts)).
    { apply (gd_bind _ _ _ _ (finds (sort_strings names))); [apply gl_read; [now apply sort_names|exact SS]|]. intros a J. constructor. now exists a. }
    intros r (atts & -> & pairs & -> & I1 & I2 & I3 & I4). constructor. cbn [rmap rbind]. split; [|eauto]. intros v [= <-]. exists pairs. split; [reflexivity|]. split; [now apply sorted_ascending|]. split.
    + intros n a J. destruct (I3 n a J) as (A & B & C). split; [|auto]. assert (K : In n (sort_strings names)) by (apply I1; apply in_map_iff; now exists (n, a)).
      apply (proj1 (sorted_in _ _)) in K. rewrite Forall_forall in F. now apply F.
    + intros Q n d a S. apply (I4 Q n d a); [|exact S]. apply (proj2 (sorted_in _ _)). now apply (ST n d).
  - cbn [bind]. constructor. destruct (is_not_exist e) eqn:E; cbn [rmap rbind].
    + split; [|eauto]. intros v [= <-]. exists []. split; [reflexivity|]. split; [exact I|]. split; [intros n a []|]. intros Q n d a S. destruct (M Q) as [_ N]. now destruct (N n d).
    + split; [discriminate|]. intros Q. destruct (M Q) as [X _]. discriminate.
Qed.
End Listing.

(** A complete record is that of the ADD. *)
Lemma written_recorded a d b : written_by a d -> carries a -> describes d b -> recorded_by a b.
Proof.
  intros (s & data & IA & AB & NM & ST & FP & (t & P) & CF) CA D.
  assert (CR : carried (sv_name s) (sv_rt s)).
  { destruct a as [l rt| | | | |n rt| | | | | | | | | |]; try destruct IA; cbn in AB, CA; injection AB as <- <-; [apply CA|exact CA]. }
  pose proof CR as (_ & m & CM).
  destruct (string_dec t "") as [->|T].
  - rewrite append_nil_r in P. subst d. pose proof (stored_attachment s data "" m ST CR FP CM NM) as AT. cbn in AT.
    assert (X : attachment_of "" data = Some b) by (apply attachment_of_iff; auto). rewrite X in AT. injection AT as ->.
    exists (sv_name s), (sv_rt s), (sv_config s), m. split; [|split; [exact CM|reflexivity]].
    destruct a as [l rt| | | | |n rt| | | | | | | | | |]; try destruct IA; cbn in AB, CF |- *; injection AB as <- <-; now rewrite CF.
  - destruct (stored_doc s data ST CR FP) as (j & m' & raw & PR & EN & CM' & U & _).
    assert (PN : parse d = None) by (eapply print_prefix_rejected; [exact EN| |exact T]; congruence).
    destruct D as (ci & U' & _). unfold unmarshal_cached_info in U'. rewrite PN in U'. discriminate.
Qed.

(** ** The crowd *)
Section Crowd.
Variables (fl : bool) (c : cni) (acts : list action) (w0 : world).
Hypothesis T0 : tidy w0.
Hypothesis TG : together c acts w0.
Let Rec l args (a : attachment) : Prop := to_collect c l args w0 a.
Definition may_read (n : string) (a : attachment) : Prop :=
  to_list c "" w0 n a \/ exists b, In b acts /\ at_entry c b (results_dir c ++ "/" ++ n) /\ recorded_by b a.
Definition still (n d : string) : Prop :=
  file_name n /\ left_alone c acts w0 (results_dir c ++ "/" ++ n) /\ sget (results_dir c ++ "/" ++ n) w0 = Some d.

Definition fine (i : nat) (a : action) (p : prog (res value)) (v : world) (acc : list (nat * event)) : Prop :=
  (forall l args, a = Gc l args -> guarded (may_do c l args (Rec l args)) (sees c l args (Rec l args)) any p) /\
  (forall id, a = Attachments id -> guarded looks_only (meets fl c may_read still) (lists fl id may_read still) p) /\
  (~ looks_around a -> exists u, goes fl (performs c a) w0 (own i acc) u p /\ confined (at_entry c a) p /\ agree (at_entry c a) v u).
Definition crowd (ps : list (prog (res value))) (v : world) (acc : list (nat * event)) : Prop :=
  (forall i a, nth_error acts i = Some a -> exists p, nth_error ps i = Some p /\ fine i a p v acc) /\
  (forall x, (forall a, In a acts -> ~ at_entry c a x) -> sget x v = sget x w0 \/ (doomed c acts w0 x /\ sget x v = None)) /\
  tidy v /\ List.length ps = List.length acts.

Lemma about_none a : looks_around a -> forall x, ~ at_entry c a x.
Proof. intros L x (name & rt & AB & _). destruct a; try destruct L; discriminate. Qed.
Lemma looks_dec a : looks_around a \/ ~ looks_around a.
Proof. destruct a; cbn; auto. Qed.

Lemma crowd_start : crowd (map (performs c) acts) w0 [].
Proof.
  split; [|split; [auto|split; [exact T0|now rewrite map_length]]].
  intros i a E. exists (performs c a). split; [now rewrite nth_error_map, E|]. split; [|split].
  - intros l args ->. apply gd_gc.
  - intros id ->. apply gl_list.
  - intros L. exists w0. split; [constructor|]. split; [apply cf_performs; auto|now intros x].
Qed.
(** What can be read. *)
Lemma crowd_reads ps v acc n d a : crowd ps v acc -> file_name n -> sget (results_dir c ++ "/" ++ n) v = Some d -> describes d a -> may_read n a.
Proof.
  intros (H & U & _) F G D. destruct TG as (DI & NC & CA & KN).
  assert (OLD : sget (results_dir c ++ "/" ++ n) w0 = Some d -> may_read n a).
  { intros E. left. split; [exact F|]. split; [now left|]. exists d. split; [exact E|]. split; [exact D|now left]. }
  destruct (somewhere_dec c acts (results_dir c ++ "/" ++ n)) as [(i & b & E & A)|N].
  - pose proof (nth_error_In _ _ E) as J. destruct (H _ _ E) as (p & _ & _ & _ & FI).
    assert (L : ~ looks_around b) by (intros L; now apply (about_none b L _ A)).
    destruct (FI L) as (u & Go & _ & AG). rewrite (AG _ A) in G.
    destruct (lone_contents _ _ _ _ _ _ _ _ Go L (CA _ J) A) as [X|[X|(d' & W & X)]]; [apply OLD; congruence|congruence|].
    assert (d' = d) by congruence. subst d'. right. exists b. split; [exact J|]. split; [exact A|]. eapply written_recorded; [exact W|now apply CA|exact D].
  - destruct (U _ N) as [X|[_ X]]; [apply OLD; congruence|congruence].
Qed.
Lemma crowd_records l args ps v acc n d a : In (Gc l args) acts -> crowd ps v acc -> file_name n -> sget (results_dir c ++ "/" ++ n) v = Some d -> describes d a -> stale l args a ->
  to_list c "" w0 n a.
Proof.
  intros J H F G D S. destruct (crowd_reads _ _ _ _ _ _ H F G D) as [X|(b & Jb & _ & (name & rt & cf & k & AD & _ & ->))]; [exact X|]. exfalso.
  assert (AB : is_add b /\ about b = Some (name, rt)) by (destruct b; try discriminate; cbn in AD; injection AD as <- <- <-; split; [exact I|reflexivity|exact I|reflexivity]).
  destruct TG as (_ & _ & _ & KN). destruct (KN l args b name rt J Jb (proj1 AB) (proj2 AB)) as [K|(valid & K1 & K2)].
  - apply K. apply S.
  - now apply (proj2 S valid K1).
Qed.
Lemma crowd_sees l args ps v acc o r v1 : In (Gc l args) acts -> crowd ps v acc -> answer fl v o r v1 -> sees c l args (Rec l args) o r.
Proof.
  intros J H An. destruct An; cbn; auto.
  - destruct (sget p v) as [d|] eqn:E; [|exact I]. intros n a F -> D S. exists n. split; [|exact S]. eapply crowd_records; eassumption.
  - intros ->. apply Forall_forall. intros n K. destruct H as (_ & _ & T & _). now apply (children_iff c v n T) in K.
Qed.
Lemma still_here ps v acc n d : crowd ps v acc -> still n d -> sget (results_dir c ++ "/" ++ n) v = Some d.
Proof. intros (_ & U & _) (F & (N1 & N2) & G). destruct (U _ N1) as [X|[X _]]; [congruence|contradiction]. Qed.
Lemma crowd_meets ps v acc o r v1 : crowd ps v acc -> answer fl v o r v1 -> meets fl c may_read still o r.
Proof.
  intros H An. pose proof H as (_ & _ & T & _). destruct An as [p|p FF| | | | | | | | | |p|p e CH NE|p e FF| | |]; cbn [meets]; auto.
  - intros n F ->. destruct (sget (results_dir c ++ "/" ++ n) v) as [d|] eqn:E.
    + split; [intros a D; eapply crowd_reads; eassumption|]. intros _ d' S. pose proof (still_here _ _ _ _ _ H S). congruence.
    + intros _ d S. pose proof (still_here _ _ _ _ _ H S). congruence.
  - intros n F ->. rewrite FF. discriminate.
  - intros ->. split; [|split].
    + apply Forall_forall. intros n K. now apply (children_iff c v n T) in K.
    + apply children_nodup. apply ssorted_nodup, T.
    + intros n d S. apply (children_iff c v n T). split; [apply S|]. exists d. eapply still_here; eassumption.
  - intros ->. intros _. split; [exact NE|]. intros n d S. assert (K : In n (children (results_dir c) v)) by (apply (children_iff c v n T); split; [apply S|exists d; eapply still_here; eassumption]).
    rewrite CH in K. destruct K.
  - intros ->. rewrite FF. discriminate.
Qed.
Lemma gc_remove l args p : In (Gc l args) acts -> may_do c l args (Rec l args) (OpRemove p) -> doomed c acts w0 p.
Proof. intros J (a & rt & (R & _) & P & ->). exists l, args. split; [exact J|]. now exists a, rt. Qed.
(** Steps of a collection and of a listing remove what is doomed, at most. *)
Lemma looking_step i a p o k ps v acc r v1 : crowd ps v acc -> nth_error acts i = Some a -> looks_around a -> fine i a p v acc -> p = Do o k -> answer fl v o r v1 ->
  fine i a (k r) v1 (acc ++ [(i, (o, r))])%list /\ (forall x, changes o = Some x -> doomed c acts w0 x /\ o = OpRemove x).
Proof.
  intros H E L (G1 & G2 & _) -> An. pose proof (nth_error_In _ _ E) as J. destruct a as [| | | | | | | | | | | |l args| |id|]; try destruct L.
  - specialize (G1 l args eq_refl). inversion G1 as [|o' k' Q1 K1]; subst. split.
    + split; [|split; [discriminate|intros X; now destruct X]]. intros l' args' [= <- <-]. apply K1. eapply crowd_sees; eassumption.
    + intros x CH. destruct o; cbn in CH; try discriminate; try (destruct Q1; fail). injection CH as ->. split; [|reflexivity]. eapply gc_remove; [exact J|exact Q1].
  - specialize (G2 id eq_refl). inversion G2 as [|o' k' Q1 K1]; subst. split.
    + split; [discriminate|split; [|intros X; now destruct X]]. intros id' [= <-]. apply K1. eapply crowd_meets; eassumption.
    + intros x CH. destruct o; cbn in CH; try discriminate; destruct Q1.
Qed.
Lemma crowd_step ps v acc i o k r v1 : crowd ps v acc -> nth_error ps i = Some (Do o k) -> answer fl v o r v1 ->
  crowd (set_nth i (k r) ps) v1 (acc ++ [(i, (o, r))])%list.
Proof.
  intros H E An. pose proof H as (Each & U & T & LE). destruct TG as (DI & NC & CA & KN).
  assert (Li : exists a, nth_error acts i = Some a).
  { assert (LT : i < List.length acts) by (rewrite <- LE; apply nth_error_Some; congruence). apply nth_error_Some in LT. destruct (nth_error acts i); [eauto|congruence]. }
  destruct Li as (a & Ea). destruct (Each _ _ Ea) as (p & Ep & FI). rewrite E in Ep. injection Ep as <-.
  destruct (looks_dec a) as [L|L].
  - destruct (looking_step _ _ _ _ _ _ _ _ _ _ H Ea L FI eq_refl An) as [FI1 CH]. split; [|split; [|split]].
    + intros j b Ej. destruct (Nat.eq_dec i j) as [<-|NE].
      * rewrite Ea in Ej. injection Ej as <-. exists (k r). split; [eapply nth_set_same; exact E|exact FI1].
      * destruct (Each _ _ Ej) as (p & Ep & F1 & F2 & F3). exists p. split; [rewrite nth_set_other by exact NE; exact Ep|]. split; [exact F1|]. split; [exact F2|].
        intros Lb. destruct (F3 Lb) as (u & Go & C & AG). exists u. rewrite own_app. cbn [own flat_map fst snd app].
        assert (X : Nat.eqb i j = false) by (now apply Nat.eqb_neq). rewrite X. cbn [app]. rewrite app_nil_r. split; [exact Go|]. split; [exact C|].
        intros x A. rewrite <- (AG x A). apply (answer_unchanged _ _ _ _ _ x An). intros CX. apply CH in CX as [CX _]. exact (NC b x (nth_error_In _ _ Ej) A CX).
    + intros x N. destruct (changes o) as [y|] eqn:CO.
      * destruct (CH y eq_refl) as [DM ->]. destruct (string_dec x y) as [->|NE].
        -- inversion An; subst; try (apply (U _ N)). right. split; [exact DM|]. now rewrite sget_sdel, String.eqb_refl.
        -- rewrite (answer_unchanged _ _ _ _ _ x An); [apply (U _ N)|]. cbn. congruence.
      * rewrite (answer_unchanged _ _ _ _ _ x An); [apply (U _ N)|congruence].
    + eapply answer_tidy; [exact An| |exact T]. intros q CO. destruct (CH q CO) as [(l & args & _ & (b & rt & _ & _ & ->)) _]. apply entry_clean.
    + now rewrite length_set.
  - destruct FI as (_ & _ & FI). destruct (FI L) as (u & Go & C & AG).
    destruct (confined_step _ _ _ _ _ _ _ _ C An) as (C1 & OI & UN). destruct (answer_agree _ _ _ _ _ _ _ An OI AG) as (u1 & A1 & AG1).
    split; [|split; [|split]].
    + intros j b Ej. destruct (Nat.eq_dec i j) as [<-|NE].
      * rewrite Ea in Ej. injection Ej as <-. exists (k r). split; [eapply nth_set_same; exact E|]. split; [intros l args ->; destruct L; exact I|]. split; [intros id ->; destruct L; exact I|].
        intros _. exists u1. rewrite own_app. cbn [own flat_map fst snd app]. rewrite Nat.eqb_refl. cbn [app]. split; [eapply goes_snoc; eassumption|]. now split.
      * destruct (Each _ _ Ej) as (p & Ep & F1 & F2 & F3). exists p. split; [rewrite nth_set_other by exact NE; exact Ep|]. split; [exact F1|]. split; [exact F2|].
        intros Lb. destruct (F3 Lb) as (u' & Go' & C' & AG'). exists u'. rewrite own_app. cbn [own flat_map fst snd app].
        assert (X : Nat.eqb i j = false) by (now apply Nat.eqb_neq). rewrite X. cbn [app]. rewrite app_nil_r. split; [exact Go'|]. split; [exact C'|].
        intros x A. rewrite <- (AG' x A). apply UN. intros B. exact (DI i j a b x NE Ea Ej B A).
    + intros x N. rewrite UN; [apply (U _ N)|]. apply N. eapply nth_error_In; exact Ea.
    + eapply answer_tidy; [exact An| |exact T]. intros q CH. apply (op_in_changes _ _ _ OI) in CH. destruct CH as (name & rt & _ & _ & ->). apply entry_clean.
    + now rewrite length_set.
Qed.
Lemma crowd_end : forall ps v tr v' rest acc, interleaves fl ps v tr v' rest -> crowd ps v acc -> crowd rest v' (acc ++ tr)%list.
Proof.
  intros ps v tr v' rest acc H. revert acc. induction H as [ps v|ps v i o k r v1 tr v2 qs E An H IH]; intros acc X; [now rewrite app_nil_r|].
  change ((i, (o, r)) :: tr) with ([(i, (o, r))] ++ tr)%list. rewrite app_assoc. apply IH. eapply crowd_step; eassumption.
Qed.
(** Everything a collection did was allowed. *)
Lemma crowd_did j l args : nth_error acts j = Some (Gc l args) -> forall ps v tr v' rest acc, interleaves fl ps v tr v' rest -> crowd ps v acc ->
  forall o r, In (o, r) (own j tr) -> may_do c l args (Rec l args) o.
Proof.
  intros Ej ps v tr v' rest acc H. revert acc. induction H as [ps v|ps v i o k r v1 tr v2 qs E An H IH]; intros acc X o' r' J; [destruct J|].
  cbn [own flat_map fst snd] in J. apply in_app_or in J as [J|J]; [|eapply IH; [eapply crowd_step; eassumption|exact J]].
  destruct (Nat.eqb_spec i j) as [->|N]; [|destruct J]. destruct J as [[= <- <-]|[]]. destruct X as (Each & _). destruct (Each _ _ Ej) as (p & Ep & (G1 & _)).
  rewrite Ep in E. injection E as ->. specialize (G1 l args eq_refl). now inversion G1.
Qed.
(** A file that is gone and not an operation's own stays away. *)
Lemma crowd_gone x : (forall a, In a acts -> ~ at_entry c a x) -> forall ps v tr v' rest acc, interleaves fl ps v tr v' rest -> crowd ps v acc ->
  sget x v = None -> sget x v' = None.
Proof.
  intros N ps v tr v' rest acc H. revert acc. induction H as [ps v|ps v i o k r v1 tr v2 qs E An H IH]; intros acc X G; [exact G|].
  pose proof (crowd_step _ _ _ _ _ _ _ _ X E An) as X1. apply (IH _ X1). pose proof X as (Each & _ & _ & LE).
  destruct (nth_error acts i) as [a|] eqn:Ea.
  2:{ apply nth_error_None in Ea. assert (i < List.length ps) by (apply nth_error_Some; congruence). lia. }
  destruct (Each _ _ Ea) as (p & Ep & FI). rewrite E in Ep. injection Ep as <-.
  destruct (changes o) as [y|] eqn:CH; [|rewrite (answer_unchanged _ _ _ _ _ x An); congruence].
  destruct (string_dec x y) as [->|NE]; [|rewrite (answer_unchanged _ _ _ _ _ x An); [exact G|congruence]].
  destruct (looks_dec a) as [L|L].
  - destruct (looking_step _ _ _ _ _ _ _ _ _ _ X Ea L FI eq_refl An) as [_ C]. destruct (C y CH) as [_ ->].
    inversion An; subst; auto. rewrite sget_sdel, String.eqb_refl. reflexivity.
  - exfalso. destruct FI as (_ & _ & FI). destruct (FI L) as (u & _ & C & _). destruct (confined_step _ _ _ _ _ _ _ _ C An) as (_ & OI & _).
    apply (N a (nth_error_In _ _ Ea)). eapply op_in_changes; eassumption.
Qed.
End Crowd.

Section Progress.
Variables (c : cni) (acts : list action) (w0 : world) (l : network_list) (args : option gc_args) (j : nat).
Hypothesis TG : together c acts w0.
Hypothesis Ej : nth_error acts j = Some (Gc l args).
Variables (n0 d0 : string) (a0 : attachment).
Hypothesis F0 : file_name n0.
Hypothesis D0 : describes d0 a0.
Hypothesis S0 : stale l args a0.
Hypothesis E0 : entry_path c (nl_name l) (rt_of_attachment a0) = results_dir c ++ "/" ++ n0.
Hypothesis G0 : sget (results_dir c ++ "/" ++ n0) w0 = Some d0.

Lemma crowd_not_own : forall a, In a acts -> ~ at_entry c a (results_dir c ++ "/" ++ n0).
Proof.
  intros a J A. destruct TG as (_ & NC & _). apply (NC a _ J A). exists l, args. split; [eapply nth_error_In; exact Ej|].
  exists a0, (rt_of_attachment a0). split; [|split; [apply params_of_rt|now symmetry]].
  exists n0. split; [|exact S0]. split; [exact F0|]. split; [now left|]. exists d0. split; [exact G0|]. split; [exact D0|now left].
Qed.
Lemma crowd_stuck ps v tr v' rest acc g P : interleaves false ps v tr v' rest -> crowd false c acts w0 ps v acc ->
  sget (results_dir c ++ "/" ++ n0) v' <> None ->
  nth_error ps j = Some g -> guarded op_any (stays c n0 d0) P g -> exists g', nth_error rest j = Some g' /\ guarded op_any (stays c n0 d0) P g'.
Proof.
  intros H. revert acc g. induction H as [ps v|ps v i o k r v1 tr v2 qs E An H IH]; intros acc g X ST Eg GD; [eauto|].
  pose proof (crowd_step _ _ _ _ TG _ _ _ _ _ _ _ _ X E An) as X1.
  assert (PV : sget (results_dir c ++ "/" ++ n0) v = Some d0).
  { pose proof X as (_ & U & _). destruct (U _ crowd_not_own) as [Y|[_ Y]]; [congruence|]. exfalso. apply ST.
    eapply (crowd_gone _ _ _ _ TG _ crowd_not_own); [eapply ILStep; eassumption|exact X|exact Y]. }
  assert (PV1 : sget (results_dir c ++ "/" ++ n0) v1 <> None).
  { intros Y. apply ST. eapply (crowd_gone _ _ _ _ TG _ crowd_not_own); [exact H|exact X1|exact Y]. }
  destruct (Nat.eq_dec i j) as [->|NE].
  - rewrite Eg in E. injection E as ->. inversion GD as [|o' k' Q1 K1]; subst. eapply IH; [exact X1|exact ST|eapply nth_set_same; exact Eg|]. apply K1.
    split; [|split].
    + intros ->. assert (CH : In n0 (children (results_dir c) v)) by (destruct X as (_ & _ & T & _); apply (children_iff c v n0 T); eauto).
      inversion An; subst; try discriminate; [eauto|]. match goal with Z : children _ _ = [] |- _ => rewrite Z in CH; destruct CH end.
    + intros ->. inversion An; subst; try discriminate. f_equal. exact PV.
    + intros ->. clear - An PV PV1. set (p0 := results_dir c ++ "/" ++ n0) in *. clearbody p0. inversion An; subst; try discriminate; [|congruence]. apply PV1. now rewrite sget_sdel, String.eqb_refl.
  - eapply IH; [exact X1|exact ST|rewrite nth_set_other by exact NE; exact Eg|exact GD].
Qed.
End Progress.
