(** Several ADDs of one attachment at once. *)
From Coq Require Import String Ascii List Bool Arith Lia.
From Verif Require Import Model.GoStr Model.Errors Model.Version Model.Path Model.Json Model.GoJson Model.Args Model.Types Model.Conf Model.Invoke
  Model.Prog Model.Api Spec.NameSpec Spec.VersionSpec Spec.JsonSpec Spec.TypesSpec Spec.PathSpec Spec.RunSpec Spec.CacheSpec Spec.HistSpec Spec.MapSpec Spec.TouchSpec Spec.CollectSpec Spec.CrowdSpec Spec.RaceSpec
  Proofs.StrP Proofs.JsonP Proofs.JsonRT Proofs.PathP Proofs.EnvP Proofs.ProgP Proofs.ApiP Proofs.VerbP Proofs.SingleP Proofs.ConfineP Proofs.EntryP Proofs.FilesP Proofs.ListP Proofs.HistP Proofs.CrashP Proofs.TouchP Proofs.CollectP Proofs.CrowdP.
Import ListNotations.
Open Scope nat_scope.
Open Scope string_scope.

(** ** Schedules *)
Lemma mingles_some fl A (ps : list (prog A)) w tr w' rest : interleaves fl ps w tr w' rest -> mingles fl ps w tr w' rest.
Proof. intros H. induction H; [constructor|]. econstructor; [eassumption|left; eassumption|assumption]. Qed.
Lemma mg_app fl A : forall tr1 (ps : list (prog A)) w tr2 w' qs u rs, mingles fl ps w tr1 u qs -> mingles fl qs u tr2 w' rs -> mingles fl ps w (tr1 ++ tr2)%list w' rs.
Proof. intros tr1 ps w tr2 w' qs u rs H. induction H; intros J; cbn [app]; [exact J|]. econstructor; eauto. Qed.
Lemma happens_tidy fl w o r w1 : happens fl w o r w1 -> (forall p, changes o = Some p -> in_clean_form p) -> tidy w -> tidy w1.
Proof. intros [An|(p & d & -> & -> & ->)]; [eapply answer_tidy; exact An|auto]. Qed.
Lemma happens_trunc w p r w1 : happens false w (OpTrunc p) r w1 -> r = RErr None /\ w1 = sset p "" w.
Proof. intros [An|(p' & d & X & _)]; [|discriminate]. inversion An; subst; [now split|discriminate]. Qed.
Lemma happens_write w p d r w1 : happens false w (OpWrite p d) r w1 -> r = RErr None /\ (w1 = overlay p d w \/ w1 = w).
Proof. intros [An|(p' & d' & _ & -> & ->)]; [|auto]. inversion An; subst; [auto|discriminate]. Qed.
Lemma happens_unchanged fl w o r w1 p : happens fl w o r w1 -> changes o <> Some p -> sget p w1 = sget p w.
Proof. intros [An|(p' & d' & _ & -> & ->)] N; [eapply answer_unchanged; eassumption|reflexivity]. Qed.

(** ** A program whose answers do not depend on the files *)
Definition sightless (o : op) : Prop := match o with OpRead _ | OpRemove _ | OpReadDir _ => False | _ => True end.
Lemma sightless_answer fl o r v v1 u : sightless o -> happens fl v o r v1 -> exists u1, answer fl u o r u1.
Proof. intros S [An|(p & d & -> & -> & ->)]; [|eexists; constructor]. destruct An; cbn in S; try (destruct S; fail); eexists; econstructor; eassumption. Qed.
Lemma sightless_alone A fl i : forall (ps : list (prog A)) w tr w' rest p u, mingles fl ps w tr w' rest -> nth_error ps i = Some p -> within sightless p ->
  exists q u', nth_error rest i = Some q /\ goes fl p u (own i tr) u' q.
Proof.
  intros ps w tr w' rest p u H. revert p u. induction H as [ps w|ps w j o k r w1 tr w2 rest E An H IH]; intros p u Ei W; [exists p, u; split; [exact Ei|constructor]|].
  cbn [own flat_map fst snd]. destruct (Nat.eqb_spec j i) as [->|N].
  - rewrite E in Ei. injection Ei as <-. inversion W as [|o1 k1 S1 W1]; subst. destruct (sightless_answer _ _ _ _ _ u S1 An) as (u1 & A1).
    destruct (IH (k r) u1) as (q & u' & Eq & G); [eapply nth_set_same; exact E|apply W1|]. exists q, u'. split; [exact Eq|]. cbn [app]. econstructor; eassumption.
  - apply IH; [rewrite nth_set_other by exact N; exact Ei|exact W].
Qed.
Lemma add_sightless c b : is_add b -> within sightless (performs c b).
Proof. intros IA. eapply within_weaken; [|apply wi_performs; destruct b; cbn in *; auto]. intros o M. destruct o, b; cbn in *; try exact I; try (destruct IA; fail); tauto. Qed.

(** ** The shape of an ADD *)
Inductive adder (p : string) : prog (res value) -> Prop :=
| AdRet v : adder p (Ret v)
| AdBlind o k : op_in (fun _ => False) o -> (forall r, adder p (k r)) -> adder p (Do o k)
| AdTrunc k d k' v : k (RErr None) = Do (OpWrite p d) k' -> k' (RErr None) = Ret (Ok v) -> adder p (Do (OpTrunc p) k).
Lemma ad_bind A p (q : prog A) (f : A -> prog (res value)) : confined (fun _ => False) q -> (forall a, adder p (f a)) -> adder p (bind q f).
Proof. intros C F. induction C as [a|o k OI C IH]; cbn [bind]; [apply F|]. now apply AdBlind. Qed.
Lemma bind_assoc_ad A B p (q : prog A) (f : A -> prog B) (g : B -> prog (res value)) : confined (fun _ => False) q -> (forall a, adder p (bind (f a) g)) -> adder p (bind (bind q f) g).
Proof. intros C F. induction C as [a|o k OI C IH]; cbn [bind]; [apply F|]. now apply AdBlind. Qed.
Lemma ad_cache_add A B c res config name rt (f1 : Errors.res unit -> prog A) (f2 : A -> prog B) (f3 : B -> prog (Errors.res value)) v :
  bind (bind (f1 (Ok tt)) f2) f3 = Ret (Ok v) -> (forall e, exists x, bind (bind (f1 (Err e)) f2) f3 = Ret x) -> (exists x, bind (bind (f1 Panic) f2) f3 = Ret x) ->
  adder (entry_path c name rt) (bind (bind (bind (cache_add c res config name rt) f1) f2) f3).
Proof.
  intros F1 F2 [x3 F3]. unfold cache_add. destruct (cache_bytes res config name rt) as [bytes|e|]; cbn [lift rbindp bind].
  2:{ destruct (F2 e) as [x ->]. constructor. }
  2:{ rewrite F3. constructor. }
  destruct (get_cache_file_path c name rt) as [p|e|] eqn:P; cbn [bind].
  2:{ destruct (F2 e) as [x ->]. constructor. }
  2:{ rewrite F3. constructor. }
  apply cache_path_ok in P as [_ ->]. unfold mkdir_all. cbn [bind]. apply AdBlind; [exact I|]. intros r. cbn [bind].
  assert (T : adder (entry_path c name rt) (bind (bind (bind (bind (write_file (entry_path c name rt) bytes) (fun oe => Ret (match oe with Some e => Err e | None => Ok tt end))) f1) f2) f3)).
  { unfold write_file. cbn [bind]. eapply AdTrunc; [reflexivity|]. cbn [bind]. exact F1. }
  destruct r as [[e|]| | | |]; try exact T. cbn [bind]. destruct (F2 e) as [x ->]. constructor.
Qed.
Lemma ad_performs c b p : is_add b -> at_entry c b p -> adder p (performs c b).
Proof.
  intros IA (name & rt0 & AB & NM & ->). destruct b as [l rt| | | | |n rt| | | | | | | | | |]; try destruct IA; cbn [about] in AB; injection AB as <- <-; cbn [performs].
  - unfold returning, add_network_list, rbindp at 1. apply bind_assoc_ad; [apply cf_add_loop|]. intros [ro|e|]; [|constructor|constructor].
    unfold rbindp, pwrap. eapply ad_cache_add; [reflexivity|intros e; eexists; reflexivity|eexists; reflexivity].
  - unfold returning, add_network, rbindp at 1. apply bind_assoc_ad; [apply cf_add_one|]. intros [ro|e|]; [|constructor|constructor].
    unfold rbindp, pwrap. eapply ad_cache_add; [reflexivity|intros e; eexists; reflexivity|eexists; reflexivity].
Qed.

(** ** What a run leaves, from its trace (no file operation fails) *)
Definition replay (w : world) (e : event) : world :=
  match e with
  | (OpTrunc p, RErr None) => sset p "" w
  | (OpWrite p d, RErr None) => overlay p d w
  | (OpRemove p, RErr None) => sdel p w
  | _ => w
  end.
Lemma goes_replay A : forall (q : prog A) w t u q', goes false q w t u q' -> u = fold_left replay t w.
Proof.
  intros q w t u q' H. induction H as [|o k w r w1 tr w2 q An G IH]; [reflexivity|]. cbn [fold_left]. rewrite IH. f_equal. inversion An; subst; try reflexivity; discriminate.
Qed.
Lemma in_own e j (tr : list (nat * event)) : In e (own j tr) <-> In (j, e) tr.
Proof.
  unfold own. rewrite in_flat_map. split.
  - intros ([i x] & J & K). cbn [fst snd] in K. destruct (Nat.eqb_spec i j) as [->|]; [|destruct K]. destruct K as [<-|[]]. exact J.
  - intros J. exists (j, e). split; [exact J|]. cbn [fst snd]. rewrite Nat.eqb_refl. now left.
Qed.
(** ** Ends in a brace *)
Definition braced (s : string) : Prop := exists t, s = t ++ "}".
Lemma braced_app a b : braced b -> braced (a ++ b).
Proof. intros (t & ->). exists (a ++ t). now rewrite append_assoc. Qed.
Lemma print_braced l : braced (print (JObj l)).
Proof.
  unfold print. destruct l as [|[k x] xs]; [exists "{"; reflexivity|]. cbn [pr]. repeat apply braced_app. now exists "".
Qed.
Lemma braced_drop s : braced s -> forall n, sdrop n s = "" \/ braced (sdrop n s).
Proof.
  intros (t & ->). induction t as [|x t IH]; intros n.
  - destruct n as [|[|n]]; cbn; [right; now exists ""|now left|left; now destruct n].
  - destruct n as [|n]; [right; now exists (String x t)|]. cbn [append sdrop]. apply IH.
Qed.
Lemma braced_not_ws s : braced s -> all_ws s = false.
Proof. intros (t & ->). rewrite all_ws_app. cbn. apply andb_false_r. Qed.
Definition whole (d : string) : Prop := exists l, d = print (JObj l) /\ encodable (JObj l).
Lemma whole_only d t : whole d -> braced t -> parse (d ++ t) = None.
Proof. intros (l & -> & EN) B. rewrite (parse_extend _ _ (JObj l)); [now rewrite (braced_not_ws _ B)|now apply parse_print|reflexivity]. Qed.

(** ** The race *)
Section Race.
Variables (c : cni) (acts : list action) (w : world) (p : string).
Hypothesis CA : forall b, In b acts -> at_entry c b p -> carries b.
Definition adds_it (b : action) : Prop := is_add b /\ at_entry c b p.
Lemma adds_it_dec b : adds_it b \/ ~ adds_it b.
Proof. unfold adds_it. destruct (at_entry_dec c b p); [|tauto]. destruct b; cbn; tauto. Qed.
Definition spares (o : op) : Prop := match o with OpTrunc x | OpWrite x _ => x <> p | _ => True end.
Lemma within_spares b : ~ adds_it b -> within spares (performs c b).
Proof.
  intros N. assert (RP : runs_plugins spares) by (split; intros; exact I).
  assert (FI : forall ns : list plugin_config, Forall (TouchP.finds spares c) ns) by (intros; apply Forall_forall; intros; split; [exact RP|exact I]).
  assert (SE : forall inj (ns : list plugin_config), Forall (sends spares c inj) ns) by (intros; apply Forall_forall; intros x _ conf _; split; [exact RP|exact I]).
  destruct (looks_dec b) as [L|L].
  - assert (LI : forall id, within spares (get_cached_attachments c id)).
    { intros id. unfold get_cached_attachments, read_dir. cbn [bind]. constructor; [exact I|]. intros r. cbn [bind].
      destruct (match r with RNames x => x | _ => _ end) as [names|e|]; try constructor. apply wi_bind; [apply wi_read_attachments; intros; exact I|intros; constructor]. }
    destruct b; try destruct L; cbn [performs]; apply wi_returning; [|apply LI]. unfold gc_network_list. destruct (nl_disable_gc l); [constructor|]. apply wi_bind; [apply LI|]. intros [atts|e|]; try constructor.
    apply wi_rbindp; [apply wi_gc_del_loop; [apply FI|split; exact I]|]. intros errs. apply wi_rbindp; [|intros; constructor]. destruct (gte_or_false _ _); [now apply wi_gc_plugin_loop|constructor].
  - eapply within_weaken; [|now apply wi_performs]. intros o M. destruct o; cbn in *; auto; intros ->; apply N; exact M.
Qed.
Lemma spares_answer fl o r v v1 : spares o -> happens fl v o r v1 -> sget p v1 = sget p v \/ sget p v1 = None.
Proof.
  intros S [An|(p' & d & -> & -> & ->)]; [|now left]. destruct (changes o) as [y|] eqn:CH; [|left; eapply answer_unchanged; [exact An|congruence]].
  destruct (string_dec y p) as [->|NE]; [|left; eapply answer_unchanged; [exact An|congruence]].
  destruct o; cbn in CH, S; try discriminate; injection CH as ->; try congruence. inversion An; subst; auto. right. now rewrite sget_sdel, String.eqb_refl.
Qed.
Definition quiet (t : trace) : Prop := forall o r, In (o, r) t -> changes o <> Some p.
Definition phase (q : prog (res value)) (t : trace) : Prop :=
  (adder p q /\ quiet t) \/
  (exists t0 d k v, t = (t0 ++ [(OpTrunc p, RErr None)])%list /\ quiet t0 /\ q = Do (OpWrite p d) k /\ k (RErr None) = Ret (Ok v)) \/
  (exists t0 d v, t = (t0 ++ [(OpTrunc p, RErr None); (OpWrite p d, RErr None)])%list /\ quiet t0 /\ q = Ret (Ok v)).
Lemma phase_step o k t v r v1 : phase (Do o k) t -> happens false v o r v1 -> phase (k r) (t ++ [(o, r)])%list.
Proof.
  intros [[AD QU]|[(t0 & d & k' & x & -> & QU & E & KX)|(t0 & d & x & _ & _ & E)]] An; [| |discriminate].
  - inversion AD as [|o1 k1 OI AK|k1 d k' x KW KX]; subst.
    + left. split; [apply AK|]. intros o' r' J. apply in_app_or in J as [J|[J|[]]]; [now apply (QU o' r')|]. injection J as <- <-. destruct o; cbn in *; try discriminate; now destruct OI.
    + apply happens_trunc in An as [-> _]. right. left. exists t, d, k', x. auto.
  - injection E as -> ->. apply happens_write in An as [-> _]. right. right. exists t0, d, x. rewrite <- app_assoc. auto.
Qed.
(** The ADD's solo run, up to the write. *)
Lemma wrote b t0 d v u : adds_it b -> carries b -> goes false (performs c b) w (t0 ++ [(OpTrunc p, RErr None); (OpWrite p d, RErr None)])%list u (Ret (Ok v)) ->
  runs false (performs c b) w (t0 ++ [(OpTrunc p, RErr None); (OpWrite p d, RErr None)])%list u (Ok v) /\ sget p u = Some d /\ whole d.
Proof.
  intros [IA AE] CB G. pose proof (goes_runs _ _ _ _ _ _ _ G) as R. split; [exact R|].
  assert (GD : sget p u = Some d).
  { rewrite (goes_replay _ _ _ _ _ _ G), fold_left_app. cbn [fold_left replay]. unfold overlay. rewrite sget_sset, String.eqb_refl. rewrite sget_sset, String.eqb_refl.
    assert (X : sdrop (String.length d) "" = "") by (now destruct (String.length d)). now rewrite X, append_nil_r. }
  split; [exact GD|]. destruct AE as (name & rt0 & AB & NM & EP).
  assert (SV : exists s, saves b (Ok v) = Some s /\ place c s = p /\ carried (sv_name s) (sv_rt s)).
  { destruct b as [l rt| | | | |n rt| | | | | | | | | |]; try destruct IA; cbn [about] in AB; injection AB as <- <-; cbn [performs] in R; unfold returning in R;
      apply runs_bind in R; destruct R as (t1 & w1 & x & t2 & _ & R2 & _); apply runs_ret in R2; destruct R2 as (_ & _ & EX); destruct x as [x|e|]; try discriminate; cbn [rmap rbind] in EX; injection EX as ->;
      (eexists; split; [reflexivity|]; split; [symmetry; exact EP|]; cbn [sv_name sv_rt]; cbn [carries] in CB; tauto). }
  destruct SV as (s & SV & PL & CR). destruct (add_saves _ _ _ _ _ _ _ _ R SV) as (_ & _ & FP & (data & ST & GP) & _). rewrite PL, GD in GP. injection GP as <-.
  destruct (stored_doc s d ST CR FP) as (l & m & raw & PR & EN & _). now exists l.
Qed.
Definition layered (acc : list (nat * event)) (x : string) : Prop :=
  x = "" \/ exists j d t, In (j, (OpWrite p d, RErr None)) acc /\ x = d ++ t /\ (t = "" \/ braced t).
Definition race (ps : list (prog (res value))) (v : world) (acc : list (nat * event)) : Prop :=
  (forall j b, nth_error acts j = Some b -> exists q, nth_error ps j = Some q /\
     (adds_it b -> phase q (own j acc) /\ exists u, goes false (performs c b) w (own j acc) u q) /\ (~ adds_it b -> within spares q /\ forall d r, ~ In (OpWrite p d, r) (own j acc))) /\
  (sget p v = None \/ (sget p v = sget p w /\ forall j e, ~ In (j, (OpTrunc p, e)) acc) \/ exists x, sget p v = Some x /\ layered acc x) /\
  List.length ps = List.length acts /\ (forall j e, In (j, e) acc -> j < List.length acts).
Lemma race_start : race (map (performs c) acts) w [].
Proof.
  split; [|split; [right; left; split; [reflexivity|intros j e []]|split; [apply map_length|intros j e []]]]. intros j b E. exists (performs c b). split; [now rewrite nth_error_map, E|]. split.
  - intros [IA AE]. split; [left; split; [now apply ad_performs|intros o r []]|]. exists w. constructor.
  - intros N. split; [now apply within_spares|intros d r []].
Qed.
Lemma race_wrote ps v acc j d r : race ps v acc -> In (j, (OpWrite p d, r)) acc ->
  exists b x u, nth_error acts j = Some b /\ adds_it b /\ nth_error ps j = Some (Ret (Ok x)) /\ runs false (performs c b) w (own j acc) u (Ok x) /\ sget p u = Some d /\ whole d.
Proof.
  intros (Each & _ & LE & LT) J. pose proof (LT _ _ J) as LJ. apply nth_error_Some in LJ. destruct (nth_error acts j) as [b|] eqn:E; [|congruence]. destruct (Each _ _ E) as (q & Eq & A & N).
  apply in_own in J. destruct (adds_it_dec b) as [AI|NA]; [|now destruct (proj2 (N NA) d r)].
  destruct (A AI) as [PH (u & G)]. destruct PH as [[_ QU]|[(t0 & d' & k & x & EO & QU & -> & _)|(t0 & d' & x & EO & QU & ->)]].
  - now destruct (QU _ _ J).
  - exfalso. rewrite EO in J. apply in_app_or in J as [J|[J|[]]]; [now destruct (QU _ _ J)|discriminate].
  - rewrite EO in J, G. assert (d' = d) as ->.
    { apply in_app_or in J as [J|[J|[J|[]]]]; [now destruct (QU _ _ J)|discriminate|congruence]. }
    destruct (wrote b t0 d x u AI) as (R & GD & WH); [apply CA; [eapply nth_error_In; exact E|apply AI]|exact G|]. rewrite <- EO in R. exists b, x, u. auto 10.
Qed.
Lemma own_snoc_same i (acc : list (nat * event)) e : own i (acc ++ [(i, e)])%list = (own i acc ++ [e])%list.
Proof. rewrite own_app. cbn [own flat_map fst snd]. now rewrite Nat.eqb_refl. Qed.
Lemma own_snoc_other i j (acc : list (nat * event)) e : i <> j -> own j (acc ++ [(i, e)])%list = own j acc.
Proof. intros N. rewrite own_app. cbn [own flat_map fst snd]. apply Nat.eqb_neq in N. rewrite N. now rewrite app_nil_r. Qed.
Lemma layered_more acc e x : layered acc x -> layered (acc ++ [e])%list x.
Proof. intros [->|(j & d & t & J & E & T)]; [now left|right]. exists j, d, t. split; [apply in_or_app; now left|auto]. Qed.
Lemma layered_braced ps v acc x : race ps v acc -> layered acc x -> x = "" \/ braced x.
Proof.
  intros R [->|(j & d & t & J & -> & T)]; [now left|right]. destruct (race_wrote _ _ _ _ _ _ R J) as (b & y & u & _ & _ & _ & _ & _ & (l & -> & _)).
  destruct T as [->|T]; [rewrite append_nil_r; apply print_braced|now apply braced_app].
Qed.
Lemma race_step ps v acc i o k r v1 : race ps v acc -> nth_error ps i = Some (Do o k) -> happens false v o r v1 ->
  race (set_nth i (k r) ps) v1 (acc ++ [(i, (o, r))])%list.
Proof.
  intros R E An. pose proof R as (Each & CO & LE & LT).
  assert (Li : exists a, nth_error acts i = Some a).
  { assert (L : i < List.length acts) by (rewrite <- LE; apply nth_error_Some; congruence). apply nth_error_Some in L. destruct (nth_error acts i); [eauto|congruence]. }
  destruct Li as (a & Ea). destruct (Each _ _ Ea) as (q & Eq & FA & FN). rewrite E in Eq. injection Eq as <-.
  assert (IN : forall j e, In (j, e) (acc ++ [(i, (o, r))])%list -> In (j, e) acc \/ (j = i /\ e = (o, r))).
  { intros j e J. apply in_app_or in J as [J|[J|[]]]; [now left|]. injection J as <- <-. now right. }
  split; [|split; [|split; [now rewrite length_set|]]].
  - intros j b Ej. destruct (Nat.eq_dec i j) as [<-|NE].
    + rewrite Ea in Ej. injection Ej as <-. exists (k r). split; [eapply nth_set_same; exact E|]. rewrite own_snoc_same. split.
      * intros AI. destruct (FA AI) as [PH (u & G)]. split; [eapply phase_step; eassumption|].
        assert (SL : sightless o).
        { destruct PH as [[AD _]|[(t0 & d & k' & x & _ & _ & X & _)|(t0 & d & x & _ & _ & X)]]; [|injection X as -> _; exact I|discriminate].
          inversion AD as [|o1 k1 OI AK|k1 d k' x KW KX]; subst; [|exact I]. destruct o; cbn in *; try exact I; destruct OI. }
        destruct (sightless_answer _ _ _ _ _ u SL An) as (u1 & A1). exists u1. eapply goes_snoc; eassumption.
      * intros NA. destruct (FN NA) as [W NW]. inversion W as [|o1 k1 S1 W1]; subst. split; [apply W1|]. intros d r' J. apply in_app_or in J as [J|[J|[]]]; [now apply (NW d r')|].
        injection J as -> ->. now apply S1.
    + destruct (Each _ _ Ej) as (q & Eq & FA' & FN'). exists q. split; [rewrite nth_set_other by exact NE; exact Eq|]. rewrite (own_snoc_other _ _ _ _ NE). now split.
  - destruct (adds_it_dec a) as [AI|NA].
    + destruct (FA AI) as [PH _]. destruct PH as [[AD QU]|[(t0 & d & k' & x & EO & _ & X & _)|(t0 & d & x & _ & _ & X)]]; [| |discriminate].
      * inversion AD as [|o1 k1 OI AK|k1 d k' x KW KX]; subst.
        -- assert (NC : changes o = None) by (destruct o; cbn in *; auto; destruct OI). assert (UN : sget p v1 = sget p v) by (eapply happens_unchanged; [exact An|congruence]). rewrite UN.
           destruct CO as [CO|[[CO NT]|(x & CO & LA)]]; [now left| |right; right; exists x; split; [exact CO|now apply layered_more]]. right. left. split; [exact CO|].
           intros j e J. destruct (IN _ _ J) as [J'|[_ J']]; [now apply (NT j e)|]. injection J' as <- _. discriminate.
        -- apply happens_trunc in An as [-> ->]. right. right. exists "". split; [now rewrite sget_sset, String.eqb_refl|now left].
      * injection X as -> ->. assert (TR : In (i, (OpTrunc p, RErr None)) acc) by (apply in_own; rewrite EO; apply in_or_app; right; now left).
        apply happens_write in An as [-> [->| ->]].
        2:{ destruct CO as [CO|[[_ NT]|(y & CO & LA)]]; [now left|now destruct (NT _ _ TR)|]. right. right. exists y. split; [exact CO|now apply layered_more]. }
        unfold overlay. destruct CO as [CO|[[_ NT]|(y & CO & LA)]]; [rewrite CO; now left|now destruct (NT _ _ TR)|]. rewrite CO. right. right. eexists. split; [rewrite sget_sset, String.eqb_refl; reflexivity|].
        right. exists i, d, (sdrop (String.length d) y). split; [apply in_or_app; right; now left|]. split; [reflexivity|].
        destruct (layered_braced _ _ _ _ R LA) as [->|B]; [left; now destruct (String.length d)|now apply braced_drop].
    + destruct (FN NA) as [W _]. inversion W as [|o1 k1 S1 W1]; subst. destruct (spares_answer _ _ _ _ _ S1 An) as [UN|UN]; [|now left]. rewrite UN.
      destruct CO as [CO|[[CO NT]|(x & CO & LA)]]; [now left| |right; right; exists x; split; [exact CO|now apply layered_more]]. right. left. split; [exact CO|].
      intros j e J. destruct (IN _ _ J) as [J'|[_ J']]; [now apply (NT j e)|]. injection J' as <- _. now apply S1.
  - intros j e J. destruct (IN _ _ J) as [J'|[-> _]]; [now apply (LT j e)|]. apply nth_error_Some. congruence.
Qed.
Lemma race_end : forall ps v tr v' rest acc, mingles false ps v tr v' rest -> race ps v acc -> race rest v' (acc ++ tr)%list.
Proof.
  intros ps v tr v' rest acc H. revert acc. induction H as [ps v|ps v i o k r v1 tr v2 qs E An H IH]; intros acc X; [now rewrite app_nil_r|].
  change ((i, (o, r)) :: tr) with ([(i, (o, r))] ++ tr)%list. rewrite app_assoc. apply IH. eapply race_step; eassumption.
Qed.
Lemma race_readable ps v acc d : race ps v acc -> sget p v = Some d -> parse d <> None ->
  sget p w = Some d \/ exists j b x u, nth_error acts j = Some b /\ adds_it b /\ nth_error ps j = Some (Ret (Ok x)) /\ runs false (performs c b) w (own j acc) u (Ok x) /\ sget p u = Some d.
Proof.
  intros R G PN. pose proof R as (_ & [CO|[[CO _]|(y & CO & LA)]] & _); [congruence|left; congruence|]. assert (y = d) by congruence. subst y. right.
  destruct LA as [->|(j & d0 & t & J & -> & T)]; [now destruct PN|]. destruct (race_wrote _ _ _ _ _ _ R J) as (b & x & u & E & AI & EP & RU & GD & WH).
  destruct T as [->|T]; [|now rewrite (whole_only _ _ WH T) in PN]. rewrite append_nil_r. exists j, b, x, u. auto.
Qed.
End Race.
