(** The cache as a map, over any history. *)
From Coq Require Import String Ascii List Bool Arith NArith ZArith Lia.
From Verif Require Import Model.GoStr Model.Errors Model.Version Model.Path Model.Json Model.GoJson Model.Types Model.Conf Model.Invoke
  Model.Prog Model.Api
  Spec.NameSpec Spec.VersionSpec Spec.JsonSpec Spec.ConfSpec Spec.TypesSpec Spec.PathSpec Spec.RunSpec Spec.CacheSpec Spec.HistSpec Spec.MapSpec
  Proofs.StrP Proofs.VersionP Proofs.ProgP Proofs.ApiP Proofs.VerbP Proofs.SingleP Proofs.ConfineP Proofs.EntryP Proofs.HistP Proofs.ListP.
Import ListNotations.
Open Scope nat_scope.
Open Scope string_scope.

Definition regular (c : cni) (s : saved) : Prop := accepted s /\ carried (sv_name s) (sv_rt s) /\ own_root c (sv_rt s) /\ from_plugin (sv_result s).
Definition represents (c : cni) (m : cache_map) (w : world) : Prop :=
  (forall p s, m p = Some s -> place c s = p /\ regular c s /\ exists data, stored s data /\ sget p w = Some data) /\
  (forall p, in_results c p -> m p = None -> sget p w = None).

Lemma regular_place c s : regular c s -> in_results c (place c s) /\ place c s = results_dir c ++ "/" ++ entry_name (sv_name s) (sv_rt s).
Proof.
  intros ((A1 & A2 & A3) & _ & OW & _). pose proof (accepted_file_name _ _ A1 A2 A3) as F.
  assert (E : place c s = results_dir c ++ "/" ++ entry_name (sv_name s) (sv_rt s)).
  { unfold place. rewrite entry_path_eq by exact F. unfold own_root in OW. rewrite OW. fold (results_dir c). apply dir_entry_of. }
  split; [|exact E]. exists (entry_name (sv_name s) (sv_rt s)). auto.
Qed.
Lemma regular_named c s : regular c s -> named (sv_name s) (sv_rt s).
Proof. intros ((A1 & A2 & A3) & _). now apply accepted_named. Qed.

(** ** One operation *)
Definition upd (m : cache_map) (p : string) (o : option saved) : cache_map := fun q => if String.eqb q p then o else m q.
Lemma upd_same m p o : upd m p o p = o. Proof. unfold upd. now rewrite String.eqb_refl. Qed.
Lemma upd_other m p o q : q <> p -> upd m p o q = m q. Proof. unfold upd. intros N. apply String.eqb_neq in N. now rewrite N. Qed.

Lemma step_add c a v s m w tr w' : runs false (performs c a) w tr w' v -> ordinary c a -> saves a v = Some s -> represents c m w ->
  represents c (upd m (place c s) (Some s)) w'.
Proof.
  intros R O S [R1 R2]. destruct (add_saves _ _ _ _ _ _ _ _ R S) as (AC & NM & FP & (data & ST & G) & U).
  assert (REG : regular c s).
  { destruct a as [l rt| | | | |n rt| | | | | | | | | |]; try discriminate; cbn [saves] in S; destruct v as [[]| |]; try discriminate; injection S as <-.
    - destruct O as (O1 & O2 & O3). split; [now apply AC|]. auto.
    - destruct O as (O2 & O3). split; [apply AC; exact I|]. auto. }
  split.
  - intros p s' E. unfold upd in E. destruct (String.eqb_spec p (place c s)) as [->|N]; [injection E as <-; eauto|].
    destruct (R1 p s' E) as (P & RG & d & ST' & G'). split; [exact P|]. split; [exact RG|]. exists d. split; [exact ST'|]. now rewrite U.
  - intros p I E. unfold upd in E. destruct (String.eqb_spec p (place c s)) as [->|N]; [discriminate|]. rewrite U by exact N. auto.
Qed.
Lemma represents_same c m w w' : (forall p, sget p w' = sget p w) -> represents c m w -> represents c m w'.
Proof.
  intros U [R1 R2]. split.
  - intros p s E. rewrite U. exact (R1 p s E).
  - intros p I E. rewrite U. auto.
Qed.
Lemma represents_del c m w p : represents c m w -> represents c (upd m p None) (sdel p w).
Proof.
  intros [R1 R2]. split.
  - intros q s E. unfold upd in E. destruct (String.eqb_spec q p) as [->|N]; [discriminate|]. rewrite sget_sdel. apply String.eqb_neq in N. rewrite N. auto.
  - intros q I E. rewrite sget_sdel. unfold upd in E. destruct (String.eqb_spec q p); [reflexivity|auto].
Qed.
Lemma represents_gone c m w p : sget p w = None -> represents c m w -> represents c (upd m p None) w /\ m p = None.
Proof.
  intros G [R1 R2]. assert (E : m p = None). { destruct (m p) as [s|] eqn:E; [|reflexivity]. destruct (R1 _ _ E) as (_ & _ & d & _ & X). congruence. }
  split; [|exact E]. split.
  - intros q s X. unfold upd in X. destruct (String.eqb_spec q p) as [->|N]; [discriminate|]. auto.
  - intros q I X. unfold upd in X. destruct (String.eqb_spec q p) as [->|N]; auto.
Qed.

Lemma del_failed c l rt w tr w' r : runs false (del_network_list c l rt) w tr w' r -> r <> Ok tt ->
  w' = w \/ (at_least (nl_version l) (0, 4, 0)%Z /\ named (nl_name l) rt /\ w' = sdel (entry_path c (nl_name l) rt) w /\
     exists e, reads_result (nl_version l) (sget (entry_path c (nl_name l) rt) w) = Err e).
Proof.
  intros H NO. destruct (del_network_list_inv _ _ _ _ _ _ _ _ H) as [(N & -> & -> & e & ->)|[(AL & P & -> & -> & C & _)|D]]; auto.
  destruct D as (cached & tr0 & trp & w1 & tr1 & trd & r1 & -> & _ & C0 & K & R & -> & FIN).
  destruct FIN as [(-> & _)|(_ & -> & ->)]; [congruence|].
  destruct K as [(AL & [(x & _ & _ & ->)|(e & -> & CD)] & KC)|(_ & _ & _ & ->)]; auto.
  destruct KC as [KC|(X & _)]; [|discriminate]. apply cache_del_inv in CD as (_ & _ & [->|(NM & ->)] & _); auto.
  right. rewrite cached_in_named in KC by exact NM. eauto 10.
Qed.
Lemma at_entry_del c l rt p : at_entry c (DelList l rt) p <-> named (nl_name l) rt /\ p = entry_path c (nl_name l) rt.
Proof.
  split; [intros (n & rt' & E & NM & ->); injection E as <- <-; auto|]. intros (NM & ->). exists (nl_name l), rt. auto.
Qed.
Lemma at_entry_one c n rt p : at_entry c (DelOne n rt) p <-> named (pc_name (pg_conf n)) rt /\ p = entry_path c (pc_name (pg_conf n)) rt.
Proof.
  split; [intros (n' & rt' & E & NM & ->); injection E as <- <-; auto|]. intros (NM & ->). exists (pc_name (pg_conf n)), rt. auto.
Qed.
Lemma is_ok_rmap A B (f : A -> B) r : is_ok (rmap f r) = is_ok r. Proof. destruct r; reflexivity. Qed.
Lemma named_dec name rt : named name rt \/ ~ named name rt.
Proof. destruct (cache_path_cases (Build_cni [] "") name rt) as [[N _]|[N _]]; auto. Qed.

Lemma step_del_list c l rt v m w tr w' : runs false (performs c (DelList l rt)) w tr w' v -> represents c m w ->
  exists m', moves c (DelList l rt) v m m' /\ represents c m' w'.
Proof.
  intros R RP. cbn [performs] in R. apply returning_inv in R as (r & R & ->). unfold moves. cbn [saves]. rewrite is_ok_rmap.
  set (p := entry_path c (nl_name l) rt).
  pose proof (del_world _ _ _ _ _ _ _ _ R) as (_ & W & GONE & _). destruct r as [[]|e|].
  - destruct (named_dec (nl_name l) rt) as [NM|NM].
    + exists (upd m p None). split.
      * split; [intros _ q A; apply at_entry_del in A as (_ & ->); apply upd_same|]. split; [|discriminate].
        intros q A. apply upd_other. intros ->. apply A. apply at_entry_del. auto.
      * destruct W as [->|(_ & ->)]; [|now apply represents_del]. apply represents_gone; [|exact RP]. now apply GONE.
    + exists m. destruct W as [->|(X & _)]; [|contradiction]. split; [|exact RP].
      split; [intros _ q A; apply at_entry_del in A as (X & _); contradiction|]. split; [reflexivity|discriminate].
  - destruct (del_failed _ _ _ _ _ _ _ R ltac:(discriminate)) as [->|(AL & NM & -> & x & RD)].
    + exists m. split; [|exact RP]. split; [discriminate|]. split; auto.
    + exists (upd m p None). split; [|now apply represents_del]. split; [discriminate|]. split.
      * intros q A. apply upd_other. intros ->. apply A. apply at_entry_del. auto.
      * intros _ q. destruct (String.eqb_spec q p) as [->|N]; [right|left; now apply upd_other]. rewrite upd_same. split; [reflexivity|]. split; [exact AL|].
        intros s r E SR WF. destruct RP as [R1 _]. destruct (R1 _ _ E) as (_ & (_ & CA & _ & FP) & d & ST & G). fold p in RD. rewrite G in RD.
        rewrite (stored_reads s d r _ ST CA FP SR WF) in RD. unfold presented in RD. destruct (get_as_version r (nl_version l)); try discriminate. eauto.
  - destruct (del_failed _ _ _ _ _ _ _ R ltac:(discriminate)) as [->|(AL & NM & -> & x & RD)].
    + exists m. split; [|exact RP]. split; [discriminate|]. split; auto.
    + exists (upd m p None). split; [|now apply represents_del]. split; [discriminate|]. split.
      * intros q A. apply upd_other. intros ->. apply A. apply at_entry_del. auto.
      * intros _ q. destruct (String.eqb_spec q p) as [->|N]; [right|left; now apply upd_other]. rewrite upd_same. split; [reflexivity|]. split; [exact AL|].
        intros s r E SR WF. destruct RP as [R1 _]. destruct (R1 _ _ E) as (_ & (_ & CA & _ & FP) & d & ST & G). fold p in RD. rewrite G in RD.
        rewrite (stored_reads s d r _ ST CA FP SR WF) in RD. unfold presented in RD. destruct (get_as_version r (nl_version l)); try discriminate. eauto.
Qed.
Lemma step_del_one c n rt v m w tr w' : runs false (performs c (DelOne n rt)) w tr w' v -> represents c m w ->
  exists m', moves c (DelOne n rt) v m m' /\ represents c m' w'.
Proof.
  intros R RP. cbn [performs] in R. apply returning_inv in R as (r & R & ->). unfold moves. cbn [saves]. rewrite is_ok_rmap.
  set (p := entry_path c (pc_name (pg_conf n)) rt).
  assert (K : (r <> Ok tt /\ w' = w) \/ (r = Ok tt /\ exists t, runs false (cache_del c (pc_name (pg_conf n)) rt) w t w' tt)).
  { apply del_network_inv in R as [(_ & _ & -> & e & ->)|(cached & t0 & t1 & td & _ & _ & _ & _ & K)]; [left; split; [discriminate|reflexivity]|].
    destruct cached as [prev|e|].
    - destruct K as (r1 & _ & -> & [(-> & CD)|(NO & _ & ->)]); [right; eauto|auto].
    - destruct K as (_ & _ & -> & x & ->). left. split; [discriminate|reflexivity].
    - destruct K as (_ & _ & -> & ->). left. split; [discriminate|reflexivity]. }
  destruct K as [(NO & ->)|(-> & t & CD)].
  - exists m. split; [|exact RP]. split; [destruct r as [[]| |]; [congruence|discriminate..]|]. auto.
  - apply cache_del_inv in CD as (_ & _ & W & GONE). destruct (named_dec (pc_name (pg_conf n)) rt) as [NM|NM].
    + exists (upd m p None). split.
      * split; [intros _ q A; apply at_entry_one in A as (_ & ->); apply upd_same|]. split; [|discriminate].
        intros q A. apply upd_other. intros ->. apply A. apply at_entry_one. auto.
      * destruct W as [->|(_ & ->)]; [|now apply represents_del]. apply represents_gone; [|exact RP]. now apply GONE.
    + exists m. destruct W as [->|(X & _)]; [|contradiction]. split; [|exact RP].
      split; [intros _ q A; apply at_entry_one in A as (X & _); contradiction|]. split; [reflexivity|discriminate].
Qed.

(** ** Garbage collection *)
Lemma dels_world c l : forall atts w tr w' rs, dels false c l atts w tr w' rs ->
  (forall p, sget p w' = sget p w \/ (sget p w' = None /\ exists a rt, In a atts /\ params_of a rt /\ p = entry_path c (nl_name l) rt)) /\
  (Forall (fun x => x = Ok tt) rs -> forall a rt, In a atts -> params_of a rt -> named (nl_name l) rt -> sget (entry_path c (nl_name l) rt) w' = None).
Proof.
  induction 1 as [|a rt atts w tr1 w1 r tr2 w2 rs P R D [IH1 IH2]]; [split; [auto|intros _ a rt []]|].
  pose proof (del_world _ _ _ _ _ _ _ _ R) as (_ & W & GONE & _). split.
  - intros p. destruct (IH1 p) as [E|(E & b & rt' & I & PB & Q)]; [|right; split; [exact E|]; exists b, rt'; split; [now right|auto]].
    destruct W as [->|(NM & ->)]; [auto|]. rewrite sget_sdel in E. destruct (String.eqb_spec p (entry_path c (nl_name l) rt)) as [Q|N]; [|auto].
    right. split; [exact E|]. exists a, rt. split; [now left|auto].
  - intros F b rt' I PB NM. apply Forall_cons_iff in F as [-> F]. destruct I as [->|I]; [|now apply (IH2 F b)].
    assert (EQ : rt' = rt). { destruct PB as (B1 & B2 & B3 & B4 & B5 & B6), P as (A1 & A2 & A3 & A4 & A5 & A6). destruct rt, rt'. cbn in *. congruence. }
    subst rt'. destruct (IH1 (entry_path c (nl_name l) rt)) as [E|(E & _)]; [|exact E]. rewrite E. now apply GONE.
Qed.
(** What is listed in a cache that is a map. *)
Lemma listed_saved c m w id n a : represents c m w -> to_list c id w n a ->
  exists s k, m (results_dir c ++ "/" ++ n) = Some s /\ caps_as (sv_rt s) k /\ a = shown s k /\ (id = "" \/ id = rt_container (sv_rt s)).
Proof.
  intros [R1 R2] (FN & NF & d & G & D & A). destruct (m (results_dir c ++ "/" ++ n)) as [s|] eqn:E.
  2:{ rewrite R2 in G; [discriminate|exists n; auto|exact E]. }
  destruct (R1 _ _ E) as (P & RG & d' & ST & G'). rewrite G in G'. injection G' as <-. pose proof (regular_named _ _ RG) as NM. destruct RG as (AC & CA & OW & FP).
  destruct CA as [TX [k CM]]. exists s, k. split; [reflexivity|]. split; [exact CM|].
  assert (X : attachment_of id d = Some a) by (apply attachment_of_iff; auto).
  rewrite (stored_attachment s d id k ST (conj TX (ex_intro _ k CM)) FP CM NM) in X.
  destruct (String.eqb_spec id "") as [->|N]; cbn [negb andb] in X; [injection X as <-; auto|].
  destruct (String.eqb_spec (rt_container (sv_rt s)) id) as [->|N']; cbn [negb] in X; [injection X as <-; auto|discriminate].
Qed.
Lemma saved_listed c m w id p s k : represents c m w -> m p = Some s -> caps_as (sv_rt s) k -> (id = "" \/ id = rt_container (sv_rt s)) ->
  to_list c id w (entry_name (sv_name s) (sv_rt s)) (shown s k) /\ p = results_dir c ++ "/" ++ entry_name (sv_name s) (sv_rt s).
Proof.
  intros [R1 R2] E CM ID. destruct (R1 _ _ E) as (P & RG & d & ST & G). pose proof (regular_named _ _ RG) as NM. pose proof (regular_place _ _ RG) as [_ PL].
  destruct RG as ((A1 & A2 & A3) & CA & OW & FP). split; [|now rewrite <- P, PL]. split; [now apply accepted_file_name|]. split.
  { destruct ID as [->| ->]; [now left|]. apply entry_name_for; [exact A1|apply NM]. }
  exists d. rewrite <- PL, P. split; [exact G|]. pose proof (stored_attachment s d id k ST CA FP CM NM) as AT.
  assert (X : negb (String.eqb id "") && negb (String.eqb (rt_container (sv_rt s)) id) = false).
  { destruct ID as [->| ->]; [reflexivity|]. rewrite String.eqb_refl. now rewrite andb_false_r. }
  rewrite X in AT. now apply attachment_of_iff in AT.
Qed.
Lemma shown_entry c s k rt : regular c s -> params_of (shown s k) rt -> entry_path c (sv_name s) rt = place c s /\ named (sv_name s) rt.
Proof.
  intros RG (A1 & A2 & A3 & A4 & A5 & A6). cbn in *. pose proof (regular_named _ _ RG) as (N1 & N2 & N3). destruct RG as (_ & _ & OW & _). split.
  - unfold place, entry_path, entry_name. rewrite A1, A3. unfold own_root in OW. rewrite OW. unfold cache_root. now rewrite A6.
  - unfold named. rewrite A1, A3. auto.
Qed.
Lemma gc_map c l args v m w w' :
  represents c m w ->
  (forall p, sget p w' = sget p w \/ (sget p w' = None /\ exists s, m p = Some s /\ collectable l args s)) ->
  (is_ok v = true -> forall p s, m p = Some s -> collectable l args s -> sget p w' = None) -> nl_disable_gc l = false ->
  exists m', moves c (Gc l args) v m m' /\ represents c m' w'.
Proof.
  intros RP U ALL DG. exists (fun p => match sget p w' with Some _ => m p | None => None end). split.
  - unfold moves. cbn [saves]. split.
    + intros p. destruct (sget p w') as [d|] eqn:G; [auto|]. destruct (m p) as [s|] eqn:E; [|auto]. right. split; [reflexivity|]. split; [exact DG|].
      destruct (U p) as [Q|(_ & s' & E' & C)]; [|rewrite E in E'; injection E' as <-; eauto]. destruct RP as [R1 _]. destruct (R1 _ _ E) as (_ & _ & d & _ & X). congruence.
    + intros OK _ p s. destruct (sget p w') as [d|] eqn:G; [|discriminate]. intros E C. rewrite (ALL OK p s E C) in G. discriminate.
  - destruct RP as [R1 R2]. split.
    + intros p s. destruct (sget p w') as [d|] eqn:G; [|discriminate]. intros E. destruct (R1 _ _ E) as (P & RG & d' & ST & G'). split; [exact P|]. split; [exact RG|].
      exists d. split; [|reflexivity]. destruct (U p) as [Q|(Q & _)]; [|congruence]. rewrite G, G' in Q. now injection Q as ->.
    + intros p I. destruct (sget p w') as [d|] eqn:G; [|reflexivity]. intros E. destruct (U p) as [Q|(Q & _)]; [|congruence]. rewrite G in Q. rewrite (R2 p I E) in Q. discriminate.
Qed.
Lemma step_gc c l args v m w tr w' : runs false (performs c (Gc l args)) w tr w' v -> tidy w -> represents c m w ->
  exists m', moves c (Gc l args) v m m' /\ represents c m' w'.
Proof.
  intros R T RP. cbn [performs] in R. apply returning_inv in R as (r & R & ->). apply gc_network_list_inv in R.
  destruct R as [(DG & _ & -> & ->)|[(_ & X & _)|(DG & tr0 & atts & tr1 & tr2 & w1 & G & _ & K)]]; [|discriminate|].
  - exists m. split; [|exact RP]. unfold moves. cbn [saves]. split; [auto|]. intros _ X. congruence.
  - destruct (listing _ _ _ _ _ _ T G) as (_ & pairs & E & _ & IFF). injection E as ->.
    (* the attachments to be collected are those saved *)
    assert (ST : forall a, In a (filter (staleb l args) (map snd pairs)) -> exists p s k, m p = Some s /\ a = shown s k /\ collectable l args s /\ regular c s /\ place c s = p).
    { intros a I. apply filter_In in I as [I S]. apply staleb_iff in S. apply in_map_iff in I as ([n a'] & <- & I). cbn [snd] in S |- *. apply IFF in I.
      apply (listed_saved c m w) in I; [|exact RP]. destruct I as (s & k & E & CM & -> & _). destruct RP as [R1 _]. destruct (R1 _ _ E) as (P & RG & _).
      exists (results_dir c ++ "/" ++ n), s, k. split; [exact E|]. split; [reflexivity|]. split; [exact S|]. auto. }
    assert (DEL : forall done w0 trd w2 rs, dels false c l done w0 trd w2 rs -> (forall a, In a done -> In a (filter (staleb l args) (map snd pairs))) -> 
       forall p, sget p w2 = sget p w0 \/ (sget p w2 = None /\ exists s, m p = Some s /\ collectable l args s)).
    { intros done w0 trd w2 rs D SUB p. destruct (dels_world _ _ _ _ _ _ _ D) as [U _]. destruct (U p) as [X|(X & a & rt & I & PA & ->)]; [auto|]. right. split; [exact X|].
      apply SUB, ST in I as (p & s & k & E & -> & C & RG & PL). destruct C as [C1 C2] eqn:Z. rewrite <- C1. destruct (shown_entry c s k rt RG PA) as [-> _]. rewrite PL. eauto. }
    destruct K as [(-> & _ & -> & D)|(es & rs & _ & D & EE & -> & _ & K)].
    + apply gc_del_loop_inv in D as [(_ & done & a & rest & tr3 & w2 & tr4 & rs & rt & F & DD & PA & R & _)|(rs & es & _ & X & _)]; [|discriminate].
      apply (gc_map c l args _ m w w' RP); [|discriminate|exact DG]. intros p.
      assert (SUB : forall b, In b done -> In b (filter (staleb l args) (map snd pairs))) by (intros b I; rewrite F; apply in_or_app; now left).
      destruct (DEL _ _ _ _ _ DD SUB p) as [Q|(Q & C)].
      * apply del_world in R as (_ & [->|(NM & ->)] & _); [auto|]. rewrite sget_sdel. destruct (String.eqb_spec p (entry_path c (nl_name l) rt)) as [->|N]; [|auto].
        right. split; [reflexivity|]. assert (I : In a (filter (staleb l args) (map snd pairs))) by (rewrite F; apply in_or_app; right; now left).
        apply ST in I as (p & s & k & E & -> & C & RG & PL). pose proof C as [C1 C2]. rewrite <- C1. destruct (shown_entry c s k rt RG PA) as [-> _]. rewrite PL. eauto.
      * right. split; [|exact C]. apply del_world in R as (_ & [->|(NM & ->)] & _); [exact Q|]. rewrite sget_sdel. destruct (String.eqb p _); [reflexivity|exact Q].
    + apply (gc_map c l args _ m w w1 RP); [apply (DEL _ _ _ _ _ D); auto| |exact DG]. rewrite is_ok_rmap. intros OK p s E C.
      assert (ES : es = []).
      { destruct K as [(_ & _ & ->)|(_ & [(-> & _)|(ends & es' & _ & -> & _)])]; [|discriminate|].
        - destruct es; [reflexivity|discriminate].
        - destruct es; [reflexivity|discriminate]. }
      apply EE in ES. destruct (dels_world _ _ _ _ _ _ _ D) as [_ GONE]. destruct RP as [R1 R2] eqn:Z. destruct (R1 _ _ E) as (P & RG & _).
      pose proof RG as (_ & (_ & k & CM) & _). destruct (saved_listed c m w "" p s k RP E CM (or_introl eq_refl)) as [TL _].
      apply IFF in TL. assert (I : In (shown s k) (filter (staleb l args) (map snd pairs))).
      { apply filter_In. split; [now apply (in_map snd) in TL|]. apply staleb_iff. exact C. }
      destruct (shown_entry c s k (rt_of_attachment (shown s k)) RG (params_of_rt _)) as [EP NM]. destruct C as [C1 C2].
      rewrite <- P, <- EP, C1. apply (GONE ES (shown s k)); [exact I|apply params_of_rt|now rewrite <- C1].
Qed.

(** ** Everything else *)
Lemma unchanged_query fl c a w tr w' v : runs fl (performs c a) w tr w' v ->
  match a with AddList _ _ | AddOne _ _ | DelList _ _ | DelOne _ _ | Gc _ _ => True | _ => w' = w end.
Proof.
  intros R. destruct a as [l rt|l rt|l rt|l rt|l rt|n rt|n rt|n rt|n rt|n rt|l|n|l args|l|id|t]; try exact I;
    try (eapply runs_same_world; [exact R|]; assert (NC : forall q, In q (changed tr) -> False)
      by (eapply (confined_changed _ _ (fun _ => False)); [exact R|apply cf_performs; [exact (fun x => x)|intros p (nm & rt' & X & _); discriminate]]);
      destruct (changed tr) as [|q l']; [reflexivity|destruct (NC q (or_introl eq_refl))]);
    cbn [performs] in R; apply returning_inv in R as (r & R & _).
  - now apply check_summary in R as (-> & _).
  - now apply get_cached_inv in R as (-> & _).
  - now apply get_cached_config_inv in R as (-> & _).
  - now apply check_network_inv in R as (-> & _).
  - now apply get_cached_inv in R as (-> & _).
  - now apply get_cached_config_inv in R as (-> & _).
  - now apply get_cached_attachments_inv in R as (-> & _).
Qed.
Lemma failed_add c a w tr w' v : runs false (performs c a) w tr w' v -> is_add a -> saves a v = None -> w' = w.
Proof.
  intros R A S. destruct a as [l rt| | | | |n rt| | | | | | | | | |]; try destruct A; cbn [performs] in R; apply returning_inv in R as (r & R & ->).
  - destruct r as [o|e|]; [discriminate| |]; apply add_network_list_inv in R as (tr1 & results & r1 & _ & _ & _ & _ & _ & _ & [(_ & _ & tr2 & r2 & _ & CA & E)|(_ & -> & _)]); auto.
    all: assert (NO : r2 <> Ok tt) by (intros ->; discriminate); pose proof CA as CA'; apply cache_add_inv in CA as (_ & _ & _ & _ & _ & CH); specialize (CH eq_refl NO);
      exact (runs_same_world _ _ _ _ _ _ _ CA' CH).
  - destruct r as [o|e|]; [discriminate| |]; apply add_network_inv in R as [(-> & _)|(x & res & tr1 & tr2 & r2 & _ & _ & _ & _ & _ & _ & CA & E)]; auto.
    all: assert (NO : r2 <> Ok tt) by (intros ->; discriminate); pose proof CA as CA'; apply cache_add_inv in CA as (_ & _ & _ & _ & _ & CH); specialize (CH eq_refl NO);
      exact (runs_same_world _ _ _ _ _ _ _ CA' CH).
Qed.
Lemma one_step c a v m w tr w' : runs false (performs c a) w tr w' v -> ordinary c a -> tidy w -> represents c m w ->
  exists m', moves c a v m m' /\ represents c m' w'.
Proof.
  intros R O T RP. destruct (saves a v) as [s|] eqn:S.
  { exists (upd m (place c s) (Some s)). split; [|eapply step_add; eassumption]. unfold moves. rewrite S. split; [apply upd_same|]. intros p N. now apply upd_other. }
  assert (Q : w' = w -> (forall p, m p = m p) /\ represents c m w') by (intros ->; auto).
  pose proof (unchanged_query _ _ _ _ _ _ _ R) as U. pose proof (failed_add _ _ _ _ _ _ R) as FA.
  destruct a as [l rt|l rt|l rt|l rt|l rt|n rt|n rt|n rt|n rt|n rt|l|n|l args|l|id|t].
  - exists m. unfold moves. rewrite S. exact (Q (FA I S)).
  - exists m. exact (Q U).
  - exact (step_del_list _ _ _ _ _ _ _ _ R RP).
  - exists m. exact (Q U).
  - exists m. exact (Q U).
  - exists m. unfold moves. rewrite S. exact (Q (FA I S)).
  - exists m. exact (Q U).
  - exact (step_del_one _ _ _ _ _ _ _ _ R RP).
  - exists m. exact (Q U).
  - exists m. exact (Q U).
  - exists m. exact (Q U).
  - exists m. exact (Q U).
  - exact (step_gc _ _ _ _ _ _ _ _ R T RP).
  - exists m. exact (Q U).
  - exists m. exact (Q U).
  - exists m. exact (Q U).
Qed.
Lemma whole_history c h w w' : history false c h w w' -> forall m, Forall (fun av => ordinary c (fst av)) h -> tidy w -> represents c m w ->
  exists m', evolves c h m m' /\ represents c m' w' /\ tidy w'.
Proof.
  induction 1 as [w|a v h w tr w1 w2 R H IH]; intros m F T RP; [exists m; split; [constructor|auto]|].
  apply Forall_cons_iff in F as [O F]. cbn [fst] in O. destruct (one_step _ _ _ _ _ _ _ R O T RP) as (m1 & M & RP1).
  destruct (IH m1 F (performs_tidy _ _ _ _ _ _ _ R T) RP1) as (m2 & E & RP2 & T2). exists m2. split; [econstructor; eassumption|auto].
Qed.
Lemma fresh_represents c w : fresh c w -> represents c (fun _ => None) w.
Proof. intros F. split; [discriminate|auto]. Qed.

(** ** Queries *)
Lemma query_result c m w name ver rt tr w' r p : represents c m w -> runs false (get_cached_result c name ver rt) w tr w' r ->
  named name rt -> p = entry_path c name rt -> in_results c p -> answers_result ver (m p) (rmap VResult r).
Proof.
  intros [R1 R2] R NM -> I. apply get_cached_inv in R as (_ & _ & _ & [->|(X & _)]); [|discriminate]. rewrite cached_in_named by exact NM.
  unfold answers_result. destruct (m (entry_path c name rt)) as [s|] eqn:E.
  - intros r SR WF. destruct (R1 _ _ E) as (_ & (_ & CA & _ & FP) & d & ST & G). rewrite G. now rewrite (stored_reads s d r _ ST CA FP SR WF).
  - rewrite (R2 _ I E). reflexivity.
Qed.
Lemma config_same_path c name name' rt w : named name rt -> named name' rt -> entry_path c name rt = entry_path c name' rt -> 
  (exists x, config_in c name' rt w = Ok (Some x)) -> config_in c name rt w = config_in c name' rt w.
Proof.
  intros N N' E (x & H). unfold config_in in *.
  assert (X : get_cache_file_path c name rt = Ok (entry_path c name rt)) by (apply cache_path_ok; auto).
  assert (X' : get_cache_file_path c name' rt = Ok (entry_path c name' rt)) by (apply cache_path_ok; auto).
  rewrite X, X', E in *. destruct (sget (entry_path c name' rt) w); [|discriminate]. destruct (unmarshal_cached_info s); [|discriminate]. destruct (negb _); [discriminate|reflexivity].
Qed.
Lemma query_config c m w name rt tr w' r p : represents c m w -> runs false (get_cached_config c name rt) w tr w' r ->
  named name rt -> p = entry_path c name rt -> in_results c p -> answers_config rt (m p) (rmap VConfig r).
Proof.
  intros [R1 R2] R NM -> I. apply get_cached_config_inv in R as (_ & _ & _ & [->|(X & _)]); [|discriminate].
  assert (X : get_cache_file_path c name rt = Ok (entry_path c name rt)) by (apply cache_path_ok; auto).
  unfold answers_config. destruct (m (entry_path c name rt)) as [s|] eqn:E.
  - intros k CM. destruct (R1 _ _ E) as (P & (_ & CA & _ & FP) & d & ST & G). unfold config_in. rewrite X, G.
    destruct (stored_doc s d ST CA FP) as (l & k' & raw & -> & EN & CM' & U & _).
    assert (k' = k) as ->. { destruct CM as [_ A], CM' as [_ B]. unfold reencoded in *. congruence. }
    rewrite U. cbn [ci_kind ci_config ci_args ci_caps]. unfold cni_cache_v1. rewrite String.eqb_refl. cbn [negb rmap].
    unfold config_answer. rewrite (caps_opt _ _ CM). destruct (rt_args (sv_rt s)); reflexivity.
  - unfold config_in. rewrite X, (R2 _ I E). reflexivity.
Qed.
Lemma query_listing c m w id tr w' r : represents c m w -> tidy w -> runs false (get_cached_attachments c id) w tr w' r ->
  answers_listing c id m (rmap VAttachments r).
Proof.
  intros RP T R. destruct (listing _ _ _ _ _ _ T R) as (_ & pairs & -> & A & IFF). exists pairs. split; [reflexivity|]. split; [exact A|].
  intros n a. rewrite IFF. split; [intros H; eapply listed_saved; eassumption|]. intros (s & k & E & CM & -> & ID).
  destruct (saved_listed c m w id _ s k RP E CM ID) as [TL PE]. apply append_inj_l in PE. apply (append_inj_l "/") in PE. now subst n.
Qed.
Lemma query c m w a tr w' v : represents c m w -> tidy w -> runs false (performs c a) w tr w' v -> answers c m a v.
Proof.
  intros RP T R. destruct a; try exact I; cbn [performs] in R; apply returning_inv in R as (r & R & ->).
  - intros p ((n & rt' & E & NM & EP) & IR). injection E as <- <-. eapply query_result; eassumption.
  - intros p ((n & rt' & E & NM & EP) & IR). injection E as <- <-. eapply query_config; eassumption.
  - intros p ((n' & rt' & E & NM & EP) & IR). injection E as <- <-. eapply query_result; eassumption.
  - intros p ((n' & rt' & E & NM & EP) & IR). injection E as <- <-. eapply query_config; eassumption.
  - eapply query_listing; eassumption.
Qed.

(** ** Reading the map's history *)
Lemma evolves_app c h1 : forall h2 m m', evolves c (h1 ++ h2)%list m m' <-> exists m1, evolves c h1 m m1 /\ evolves c h2 m1 m'.
Proof.
  induction h1 as [|[a v] h1 IH]; intros h2 m m'; cbn [app].
  - split; [intros E; exists m; split; [constructor|exact E]|]. intros (m1 & E1 & E2). inversion E1; subst. exact E2.
  - split.
    + intros E. inversion E as [|? ? ? ? m1 ? M E1]; subst. apply IH in E1 as (m2 & A & B). exists m2. split; [econstructor; eassumption|exact B].
    + intros (m1 & E1 & E2). inversion E1 as [|? ? ? ? m2 ? M E3]; subst. econstructor; [exact M|]. apply IH. eauto.
Qed.
Lemma at_least_below v t : at_least v t -> below v t -> False.
Proof.
  intros ([[a b] d] & M & GE) (u & M' & GT). apply parse_version_spec in M, M'. rewrite M in M'. injection M' as <-. destruct t as [[x y] z].
  unfold triple_ge, triple_gt in *. destruct GE as [GE|GE]; [|injection GE as -> -> ->]; lia.
Qed.
Lemma spared_step c s a v m m' : moves c a v m m' -> m (place c s) = Some s -> spares c s (a, v) -> m' (place c s) = Some s.
Proof.
  intros M E [SV SP]. unfold moves in M. destruct (saves a v) as [s'|] eqn:S.
  { destruct M as [_ M]. rewrite M; [exact E|]. intros X. now apply (SV s' eq_refl). }
  destruct a; try (now rewrite M).
  - destruct M as (M1 & M2 & M3). destruct SP as [SP|(NO & SP)]; [now rewrite M2|]. destruct (M3 NO (place c s)) as [->|(_ & AL & X)]; [exact E|]. exfalso.
    destruct SP as [B|(r & SR & WF & NE)]; [eapply at_least_below; eassumption|]. destruct (X s r E SR WF) as [e Y]. now apply (NE e).
  - destruct M as (M1 & M2 & M3). destruct SP as [SP|NO]; [now rewrite M2|]. now rewrite M3.
  - destruct M as (M1 & M2). destruct (M1 (place c s)) as [->|(_ & DG & s' & E' & C)]; [exact E|]. rewrite E in E'. injection E' as <-. destruct SP; [congruence|contradiction].
Qed.
Lemma spared c s h : forall m m', evolves c h m m' -> m (place c s) = Some s -> Forall (spares c s) h -> m' (place c s) = Some s.
Proof.
  induction h as [|[a v] h IH]; intros m m' E G F; inversion E as [|? ? ? ? m1 ? M E1]; subst; [exact G|]. apply Forall_cons_iff in F as [S F].
  eapply IH; [exact E1| |exact F]. eapply spared_step; eassumption.
Qed.
Lemma nothing_step c p a v m m' : moves c a v m m' -> m p = None -> (forall s, saves a v = Some s -> place c s <> p) -> m' p = None.
Proof.
  intros M E SV. unfold moves in M. destruct (saves a v) as [s'|] eqn:S.
  { destruct M as [_ M]. rewrite M; [exact E|]. intros X. now apply (SV s' eq_refl). }
  destruct a; try (now rewrite M).
  - destruct M as (M1 & M2 & M3). destruct (is_ok v) eqn:OK.
    + assert (D : at_entry c (DelList l rt) p \/ ~ at_entry c (DelList l rt) p).
      { destruct (named_dec (nl_name l) rt) as [N|N]; [destruct (String.eqb_spec p (entry_path c (nl_name l) rt)) as [->|X]; [left|right]|right]; rewrite at_entry_del; tauto. }
      destruct D as [D|D]; [now apply M1|now rewrite M2].
    + destruct (M3 eq_refl p) as [->|(-> & _)]; auto.
  - destruct M as (M1 & M2 & M3). destruct (is_ok v) eqn:OK.
    + assert (D : at_entry c (DelOne n rt) p \/ ~ at_entry c (DelOne n rt) p).
      { destruct (named_dec (pc_name (pg_conf n)) rt) as [N|N]; [destruct (String.eqb_spec p (entry_path c (pc_name (pg_conf n)) rt)) as [->|X]; [left|right]|right]; rewrite at_entry_one; tauto. }
      destruct D as [D|D]; [now apply M1|now rewrite M2].
    + now rewrite (M3 eq_refl).
  - destruct M as (M1 & M2). destruct (M1 p) as [->|(-> & _)]; auto.
Qed.
Lemma nothing c p h : forall m m', evolves c h m m' -> m p = None -> Forall (fun av => forall s, saves (fst av) (snd av) = Some s -> place c s <> p) h -> m' p = None.
Proof.
  induction h as [|[a v] h IH]; intros m m' E G F; inversion E as [|? ? ? ? m1 ? M E1]; subst; [exact G|]. apply Forall_cons_iff in F as [S F].
  eapply IH; [exact E1| |exact F]. eapply nothing_step; eassumption.
Qed.
