(** The result decoders read what the document says. *)
From Coq Require Import String Ascii List Arith NArith ZArith Bool Lia.
From Verif Require Import Model.GoStr Model.Errors Model.Json Model.GoJson Model.NetIP Model.Types
  Spec.VersionSpec Spec.TypesSpec Spec.AddrSpec Spec.DocSpec Proofs.StrP Proofs.VersionP Proofs.JsonRT Proofs.GoJsonP Proofs.ConfP Proofs.TypesP Proofs.DecodeP Proofs.AddrP.
Import ListNotations.
Open Scope nat_scope.
Open Scope string_scope.

(** *** Keys *)
Lemma key_conflict f g k : key_is f k = true -> key_is g k = true -> String.eqb (fold_key f) (fold_key g) = true.
Proof. unfold key_is. rewrite !String.eqb_eq. congruence. Qed.
Definition folds (o : list (string * json)) : list string := map (fun kv => fold_key (fst kv)) o.
Lemma only_one f o : NoDup (folds o) -> forall k v k' v', In (k, v) o -> key_is f k = true -> In (k', v') o -> key_is f k' = true -> v = v'.
Proof.
  induction o as [|[k0 v0] o IH]; intros N k v k' v' I K I' K'; [destruct I|]. inversion N as [|? ? NI ND]; subst.
  assert (F : forall k1 v1, In (k1, v1) o -> key_is f k1 = true -> key_is f k0 = true -> False).
  { intros k1 v1 I1 K1 K0. apply NI. unfold key_is in *. apply String.eqb_eq in K1, K0. cbn. rewrite <- K0, K1. apply in_map_iff. exists (k1, v1). auto. }
  destruct I as [E|I], I' as [E'|I'].
  - congruence.
  - injection E as -> ->. destruct (F _ _ I' K' K).
  - injection E' as -> ->. destruct (F _ _ I K K').
  - exact (IH ND _ _ _ _ I K I' K').
Qed.
Lemma member_dec f o : member f o None \/ exists v, member f o (Some v).
Proof.
  induction o as [|[k v] o [IH|[w (k' & I & K)]]].
  - left. intros k w [].
  - destruct (key_is f k) eqn:K; [right; exists v, k; split; [now left|exact K]|]. left. intros k' w [E|I]; [injection E as <- <-; exact K|exact (IH _ _ I)].
  - right. exists w, k'. split; [now right|exact K].
Qed.
Lemma member_fun f o v w : NoDup (folds o) -> member f o v -> member f o w -> v = w.
Proof.
  intros N. destruct v as [v|], w as [w|]; cbn; intros H1 H2.
  - destruct H1 as (k & I & K), H2 as (k' & I' & K'). f_equal. exact (only_one f o N _ _ _ _ I K I' K').
  - destruct H1 as (k & I & K). rewrite (H2 _ _ I) in K. discriminate.
  - destruct H2 as (k & I & K). rewrite (H1 _ _ I) in K. discriminate.
  - reflexivity.
Qed.

(** *** Struct decoding *)
Lemma members_app {A} (stp : A -> string -> json -> option A) z l1 l2 :
  decode_members stp z (l1 ++ l2) = match decode_members stp z l1 with Some a => decode_members stp a l2 | None => None end.
Proof.
  revert z. induction l1 as [|[k v] l1 IH]; intros z; [reflexivity|]. cbn [app]. rewrite !decode_members_cons. destruct (stp z k v); [apply IH|reflexivity].
Qed.
Section Struct.
Context {A B : Type} (stp : A -> string -> json -> option A) (zero : A) (f : string) (get : A -> B).
Hypothesis keep : forall a k v a', key_is f k = false -> stp a k v = Some a' -> get a' = get a.
Lemma members_keep o : forall z a, member f o None -> decode_members stp z o = Some a -> get a = get z.
Proof.
  induction o as [|[k v] o IH]; intros z a M D; [cbn in D; injection D as <-; reflexivity|]. rewrite decode_members_cons in D.
  destruct (stp z k v) as [b|] eqn:E; [|discriminate]. rewrite (IH b a); [|intros k' w I; apply (M k' w); now right|exact D].
  eapply keep; [|exact E]. apply (M k v). now left.
Qed.
Lemma field_read (P : option json -> B -> Prop) o a : NoDup (folds o) -> P None (get zero) ->
  (forall a k v a', In (k, v) o -> key_is f k = true -> get a = get zero -> stp a k v = Some a' -> P (Some v) (get a')) ->
  decode_members stp zero o = Some a -> field f o P (get a).
Proof.
  intros N Z R D. destruct (member_dec f o) as [M|[v M]].
  - exists None. split; [exact M|]. rewrite (members_keep o _ _ M D). exact Z.
  - exists (Some v). split; [exact M|]. destruct M as (k & I & K). pose proof I as I0. apply in_split in I as (l1 & l2 & ->).
    rewrite members_app in D. destruct (decode_members stp zero l1) as [b|] eqn:E; [|discriminate]. rewrite decode_members_cons in D.
    destruct (stp b k v) as [c|] eqn:S; [|discriminate].
    assert (M : forall k' w, In (k', w) (l1 ++ l2)%list -> key_is f k' = false).
    { intros k' w I. destruct (key_is f k') eqn:K'; [|reflexivity]. exfalso. unfold folds in N. rewrite map_app in N. cbn [map fst] in N.
      apply NoDup_remove_2 in N. apply N. unfold key_is in K, K'. apply String.eqb_eq in K, K'. rewrite <- K, K', <- map_app.
      apply in_map_iff. exists (k', w). auto. }
    assert (G1 : get b = get zero) by (eapply members_keep; [|exact E]; intros k' w I; apply (M k' w), in_or_app; now left).
    assert (G2 : get a = get c) by (eapply members_keep; [|exact D]; intros k' w I; apply (M k' w), in_or_app; now right).
    rewrite G2. eapply R; [exact I0|exact K|exact G1|exact S].
Qed.
End Struct.
Lemma members_total {A} (stp : A -> string -> json -> option A) o : forall z, (forall a k v, In (k, v) o -> exists a', stp a k v = Some a') ->
  exists a, decode_members stp z o = Some a.
Proof.
  induction o as [|[k v] o IH]; intros z H; [exists z; reflexivity|]. destruct (H z k v) as [b E]; [now left|].
  destruct (IH b) as [a D]; [intros; apply H; now right|]. exists a. now rewrite decode_members_cons, E.
Qed.
Lemma struct_object {A} (stp : A -> string -> json -> option A) z j a : decode_struct stp z j = Some a <-> exists o, object j o /\ decode_members stp z o = Some a.
Proof.
  split.
  - destruct j as [| | | | |o]; try discriminate; cbn [decode_struct]; intros H; [exists []; split; [now right|exact H]|]. exists o. split; [now left|exact H].
  - intros (o & [->|[-> ->]] & D); exact D.
Qed.
Lemma plain_object j o : plain j -> object j o -> NoDup (folds o) /\ forall k v, In (k, v) o -> plain v.
Proof.
  intros P [->|[-> ->]]; [|split; [constructor|intros ? ? []]]. inversion P as [| | | | |? N F]; subst. split; [exact N|]. rewrite Forall_forall in F. intros k v I. exact (F _ I).
Qed.
(** The object is determined. *)
Lemma object_fun j o o' : object j o -> object j o' -> o = o'.
Proof. intros [->|[-> ->]] [E|[E E']]; congruence. Qed.

(** *** Values of members *)
Record reads {B} (P : option json -> B -> Prop) (dec : B -> json -> option B) (z : B) : Prop := {
  rd_none : forall b, P None b <-> b = z;
  rd_some : forall v b, plain v -> (dec z v = Some b <-> P (Some v) b);
  rd_any : forall c v b, plain v -> dec z v = Some b -> exists b', dec c v = Some b'
}.
Lemma reads_fun {B} P dec (z : B) v b b' : reads P dec z -> (forall w, v = Some w -> plain w) -> P v b -> P v b' -> b = b'.
Proof.
  intros R W H H'. destruct v as [v|].
  - specialize (W v eq_refl). apply (rd_some _ _ _ R v b W) in H. apply (rd_some _ _ _ R v b' W) in H'. congruence.
  - apply (rd_none _ _ _ R) in H, H'. congruence.
Qed.
Lemma reads_field_fun {B} P dec (z : B) f o b b' : reads P dec z -> NoDup (folds o) -> (forall k v, In (k, v) o -> plain v) -> field f o P b -> field f o P b' -> b = b'.
Proof.
  intros R N W (v & M & H) (v' & M' & H'). rewrite (member_fun f o v' v N M' M) in H'. eapply reads_fun; [exact R| |exact H|exact H'].
  intros w ->. destruct M as (k & I & _). exact (W _ _ I).
Qed.
Lemma reads_accept {B} P dec (z : B) f o b k v c : reads P dec z -> NoDup (folds o) -> plain v -> field f o P b -> In (k, v) o -> key_is f k = true ->
  exists b', dec c v = Some b'.
Proof.
  intros R N W (w & M & H) I K. rewrite (member_fun f o w (Some v) N M) in H by (exists k; auto). apply (rd_some _ _ _ R v b W) in H. eapply (rd_any _ _ _ R); eassumption.
Qed.
Lemma read_text : reads text dec_string "".
Proof.
  split; [reflexivity| |].
  - intros v b _. destruct v; cbn; split; intros H; try discriminate; try contradiction; congruence.
  - intros c v b _ H. destruct v; try discriminate; cbn; eauto.
Qed.
Lemma read_integer : reads integer dec_int 0%Z.
Proof.
  split; [reflexivity| |].
  - intros v b _. destruct v as [| |l| | |]; cbn; split; intros H; try discriminate; try contradiction; try congruence; now apply part_atoi.
  - intros c v b _ H. destruct v; try discriminate; cbn; eauto.
Qed.
Lemma read_maybe {C} (Q : json -> C -> Prop) d : (forall v x, plain v -> v <> JNull -> (d v = Some x <-> Q v x)) -> reads (maybe Q) (fun _ => dec_ptr d) None.
Proof.
  intros H. split; [reflexivity| |eauto].
  intros v b W. destruct v as [| | | | |]; cbn [dec_ptr maybe]; [split; congruence|..]; (split; [intros E; apply omap_some in E as (x & E & ->); exists x; split; [reflexivity|]; apply (H _ _ W); [discriminate|exact E]
    |intros (x & -> & E); apply (H _ _ W) in E; [|discriminate]; now rewrite E]).
Qed.
Lemma read_all {C} (Q : json -> C -> Prop) d l : (forall v x, plain v -> (d v = Some x <-> Q v x)) -> Forall plain l -> forall xs, dec_all d l = Some xs <-> Forall2 Q l xs.
Proof.
  intros H F. induction F as [|v l W F IH]; intros xs; cbn [dec_all].
  - split; [intros E; injection E as <-; constructor|intros E; inversion E; reflexivity].
  - split.
    + destruct (d v) as [x|] eqn:E; [|discriminate]. destruct (dec_all d l) as [ys|]; [|discriminate]. intros E'. injection E' as <-.
      constructor; [now apply (H _ _ W)|now apply IH].
    + intros E. inversion E as [|? x ? ys Q0 F2]; subst. apply (H _ _ W) in Q0. apply IH in F2. rewrite Q0, F2. reflexivity.
Qed.
Lemma read_array {C} (Q : json -> C -> Prop) d : (forall v x, plain v -> (d v = Some x <-> Q v x)) -> reads (array Q) (fun _ => dec_list d) [].
Proof.
  intros H. split; [reflexivity| |eauto].
  intros v b W. destruct v as [| | | |l|]; cbn [dec_list array]; try (split; [discriminate|contradiction]); [split; congruence|].
  inversion W; subst. now apply read_all.
Qed.
Lemma entry_iff {C} (Q : json -> C -> Prop) d : (forall v x, plain v -> (d v = Some x <-> Q v x)) -> forall v x, plain v -> (dec_ptr d v = Some x <-> entry Q v x).
Proof. intros H v x W. exact (rd_some _ _ _ (read_maybe Q d (fun v x W _ => H v x W)) v x W). Qed.
Lemma read_texts : reads texts (fun _ => dec_strs) [].
Proof. apply (read_array (fun j s => text (Some j) s) (dec_string "")). intros v x W. exact (rd_some _ _ _ read_text v x W). Qed.
Lemma read_number : reads (maybe number) (fun _ => dec_ptr (dec_int 0%Z)) None.
Proof. apply read_maybe. intros v x W _. exact (rd_some _ _ _ read_integer v x W). Qed.
Lemma read_address : reads address (fun _ => dec_ip) [].
Proof.
  split; [reflexivity| |eauto].
  intros v b _. destruct v as [| | |s| |]; cbn [dec_ip address]; try (split; [discriminate|contradiction]); [split; [intros E; injection E as <-; reflexivity|intros ->; reflexivity]|].
  destruct (String.eqb_spec s "") as [->|NE].
  - split; [intros E; injection E as <-; auto|]. intros [[_ ->]|(bits & H)]; [reflexivity|]. assert (E : parse_ip "" = Some b) by (apply parse_ip_spec; eauto). discriminate E.
  - rewrite parse_ip_spec. split; [auto|]. intros [[-> _]|H]; [congruence|exact H].
Qed.
Lemma read_prefix : reads prefix (fun _ => dec_ipnet) ipnet_zero.
Proof.
  split; [reflexivity| |eauto]. intros v b _. destruct v as [| | |s| |]; cbn [dec_ipnet prefix]; try (split; [discriminate|contradiction]). apply parse_cidr_spec.
Qed.

(** *** The types *)
Ltac key_clash := match goal with H1 : key_is ?f ?k = true, H2 : key_is ?g ?k = true |- _ =>
  let C := fresh in pose proof (key_conflict f g k H1 H2) as C; vm_compute in C; discriminate C end.
Ltac cases H :=
  repeat match type of H with
  | (if ?b then _ else _) = Some _ => let K := fresh "K" in destruct b eqn:K
  end.
(** The step keeps the other fields. *)
Ltac keeps := intros ? ? ? ? ?N ?H; cases H; try congruence; first [apply omap_some in H as (? & ? & ->); reflexivity | injection H as <-; reflexivity].
(** The step decodes the field; [R] reads its value. *)
Ltac gives R W := let I := fresh "I" in let K := fresh "Key" in let G := fresh "G" in let H := fresh "H" in
  intros ? ? ? ? I K G H; cases H; try key_clash; try congruence; apply omap_some in H as (? & H & ->);
  apply (rd_some _ _ _ R); [exact (W _ _ I)|]; cbn in G |- *; rewrite ?G in H; exact H.
Ltac one R N W D := refine (field_read _ _ _ _ _ _ _ _ N _ _ D); [keeps|apply (rd_none _ _ _ R); reflexivity|gives R W].
Ltac same R N W D F := refine (reads_field_fun _ _ _ _ _ _ _ R N W _ F); one R N W D.
Ltac take R N W F I := match goal with |- exists _, (if key_is ?f ?k then _ else _) = _ =>
  let K := fresh "K" in let X := fresh "X" in destruct (key_is f k) eqn:K;
  [pose proof (fun c => reads_accept _ _ _ _ _ _ _ _ c R N (W _ _ I) F I K) as X; cbv beta in X;
   match goal with |- exists _, option_map _ ?t = _ => let b := fresh "b" in assert (exists b, t = Some b) as [b ->] by (let TR := type of R in match TR with reads _ _ ?z => first [exact (X z) | apply X] end); eexists; reflexivity end
  |clear K] end.
Ltac total T o := match goal with |- decode_members ?stp ?z o = _ => assert (T : exists a, decode_members stp z o = Some a) end.
Lemma dns_any cur j d : plain j -> dec_dns cur j = Some d -> forall c, exists d', dec_dns c j = Some d'.
Proof.
  intros P H c. unfold dec_dns in *. apply struct_object in H as (o & O & D). destruct (plain_object _ _ P O) as [N W].
  set (stp := fun (d : dns) (k : string) (v : json) => _) in *.
  assert (S : forall a a' k v b, stp a k v = Some b -> exists b', stp a' k v = Some b').
  { intros a a' k v b S. unfold stp in *. cases S; [..|eexists; reflexivity]; apply omap_some in S as (x & S & _); [rewrite S; eexists; reflexivity| |rewrite S; eexists; reflexivity..].
    destruct v; try discriminate S; cbn; eexists; reflexivity. }
  enough (exists d', decode_members stp c o = Some d') as [d' E] by (exists d'; apply struct_object; eauto).
  clear O N W. revert cur c D. induction o as [|[k v] o IH]; intros cur c D; [exists c; reflexivity|]. rewrite decode_members_cons in *.
  destruct (stp cur k v) as [b|] eqn:E; [|discriminate]. destruct (S _ c _ _ _ E) as [b' E']. rewrite E'. exact (IH _ _ D).
Qed.
Lemma dns_iff j d : plain j -> (dec_dns dns_zero j = Some d <-> dns_doc j d).
Proof.
  intros P. unfold dec_dns, dns_doc. rewrite struct_object. split.
  - intros (o & O & D). exists o. split; [exact O|]. destruct (plain_object _ _ P O) as [N W].
    split; [one read_texts N W D|]. split; [one read_text N W D|]. split; [one read_texts N W D|one read_texts N W D].
  - intros (o & O & F1 & F2 & F3 & F4). exists o. split; [exact O|]. destruct (plain_object _ _ P O) as [N W].
    total T o.
    { apply members_total. intros a k v I. take read_texts N W F1 I. take read_text N W F2 I. take read_texts N W F3 I. take read_texts N W F4 I. eexists; reflexivity. }
    destruct T as [a D]. rewrite D. f_equal.
    assert (E1 : d_nameservers a = d_nameservers d) by same read_texts N W D F1. assert (E2 : d_domain a = d_domain d) by same read_text N W D F2.
    assert (E3 : d_search a = d_search d) by same read_texts N W D F3. assert (E4 : d_options a = d_options d) by same read_texts N W D F4.
    destruct a, d; cbn in *; congruence.
Qed.
Lemma read_dns : reads dns_field dec_dns dns_zero.
Proof. split; [reflexivity|exact dns_iff|]. intros c v b P H. exact (dns_any _ _ _ P H c). Qed.
Lemma route_iff j x : plain j -> (dec_route j = Some x <-> route_doc j x).
Proof.
  intros P. unfold dec_route, route_doc. rewrite struct_object. split.
  - intros (o & O & D). exists o. split; [exact O|]. destruct (plain_object _ _ P O) as [N W].
    split; [one read_prefix N W D|]. split; [one read_address N W D|]. split; [one read_integer N W D|]. split; [one read_integer N W D|]. split; [one read_integer N W D|]. split; [one read_number N W D|]. one read_number N W D.
  - intros (o & O & F1 & F2 & F3 & F4 & F5 & F6 & F7). exists o. split; [exact O|]. destruct (plain_object _ _ P O) as [N W]. total T o.
    { apply members_total. intros a k v I. take read_prefix N W F1 I. take read_address N W F2 I. take read_integer N W F3 I. take read_integer N W F4 I. take read_integer N W F5 I. take read_number N W F6 I. take read_number N W F7 I. eexists; reflexivity. }
    destruct T as [a D]. rewrite D. f_equal.
    assert (E1 : r_dst a = r_dst x) by same read_prefix N W D F1. assert (E2 : r_gw a = r_gw x) by same read_address N W D F2. assert (E3 : r_mtu a = r_mtu x) by same read_integer N W D F3. assert (E4 : r_advmss a = r_advmss x) by same read_integer N W D F4. assert (E5 : r_priority a = r_priority x) by same read_integer N W D F5. assert (E6 : r_table a = r_table x) by same read_number N W D F6. assert (E7 : r_scope a = r_scope x) by same read_number N W D F7.
    destruct a, x; cbn in *; congruence.
Qed.
Lemma ipc020_iff j x : plain j -> (dec_ipc020 j = Some x <-> ip_doc020 j x).
Proof.
  intros P. unfold dec_ipc020, ip_doc020. rewrite struct_object. split.
  - intros (o & O & D). exists o. split; [exact O|]. destruct (plain_object _ _ P O) as [N W].
    split; [one read_prefix N W D|]. split; [one read_address N W D|]. one (read_array _ _ route_iff) N W D.
  - intros (o & O & F1 & F2 & F3). exists o. split; [exact O|]. destruct (plain_object _ _ P O) as [N W]. total T o.
    { apply members_total. intros a k v I. take read_prefix N W F1 I. take read_address N W F2 I. take (read_array _ _ route_iff) N W F3 I. eexists; reflexivity. }
    destruct T as [a D]. rewrite D. f_equal.
    assert (E1 : i2_ip a = i2_ip x) by same read_prefix N W D F1. assert (E2 : i2_gateway a = i2_gateway x) by same read_address N W D F2. assert (E3 : i2_routes a = i2_routes x) by same (read_array _ _ route_iff) N W D F3.
    destruct a, x; cbn in *; congruence.
Qed.
Lemma res020_iff j x : plain j -> (dec_res020 j = Some x <-> doc020 j x).
Proof.
  intros P. unfold dec_res020, doc020. rewrite struct_object. split.
  - intros (o & O & D). exists o. split; [exact O|]. destruct (plain_object _ _ P O) as [N W].
    split; [one read_text N W D|]. split; [one (read_maybe _ _ (fun v x W _ => ipc020_iff v x W)) N W D|]. split; [one (read_maybe _ _ (fun v x W _ => ipc020_iff v x W)) N W D|]. one read_dns N W D.
  - intros (o & O & F1 & F2 & F3 & F4). exists o. split; [exact O|]. destruct (plain_object _ _ P O) as [N W]. total T o.
    { apply members_total. intros a k v I. take read_text N W F1 I. take (read_maybe _ _ (fun v x W _ => ipc020_iff v x W)) N W F2 I. take (read_maybe _ _ (fun v x W _ => ipc020_iff v x W)) N W F3 I. take read_dns N W F4 I. eexists; reflexivity. }
    destruct T as [a D]. rewrite D. f_equal.
    assert (E1 : v2_version a = v2_version x) by same read_text N W D F1. assert (E2 : v2_ip4 a = v2_ip4 x) by same (read_maybe _ _ (fun v x W _ => ipc020_iff v x W)) N W D F2. assert (E3 : v2_ip6 a = v2_ip6 x) by same (read_maybe _ _ (fun v x W _ => ipc020_iff v x W)) N W D F3. assert (E4 : v2_dns a = v2_dns x) by same read_dns N W D F4.
    destruct a, x; cbn in *; congruence.
Qed.
Lemma if040_iff j x : plain j -> (dec_if040 j = Some x <-> if_doc040 j x).
Proof.
  intros P. unfold dec_if040, if_doc040. rewrite struct_object. split.
  - intros (o & O & D). exists o. split; [exact O|]. destruct (plain_object _ _ P O) as [N W].
    split; [one read_text N W D|]. split; [one read_text N W D|]. one read_text N W D.
  - intros (o & O & F1 & F2 & F3). exists o. split; [exact O|]. destruct (plain_object _ _ P O) as [N W]. total T o.
    { apply members_total. intros a k v I. take read_text N W F1 I. take read_text N W F2 I. take read_text N W F3 I. eexists; reflexivity. }
    destruct T as [a D]. rewrite D. f_equal.
    assert (E1 : if4_name a = if4_name x) by same read_text N W D F1. assert (E2 : if4_mac a = if4_mac x) by same read_text N W D F2. assert (E3 : if4_sandbox a = if4_sandbox x) by same read_text N W D F3.
    destruct a, x; cbn in *; congruence.
Qed.
Lemma ipc040_iff j x : plain j -> (dec_ipc040 j = Some x <-> ip_doc040 j x).
Proof.
  intros P. unfold dec_ipc040, ip_doc040. rewrite struct_object. split.
  - intros (o & O & D). exists o. split; [exact O|]. destruct (plain_object _ _ P O) as [N W].
    split; [one read_text N W D|]. split; [one read_number N W D|]. split; [one read_prefix N W D|]. one read_address N W D.
  - intros (o & O & F1 & F2 & F3 & F4). exists o. split; [exact O|]. destruct (plain_object _ _ P O) as [N W]. total T o.
    { apply members_total. intros a k v I. take read_text N W F1 I. take read_number N W F2 I. take read_prefix N W F3 I. take read_address N W F4 I. eexists; reflexivity. }
    destruct T as [a D]. rewrite D. f_equal.
    assert (E1 : i4_version a = i4_version x) by same read_text N W D F1. assert (E2 : i4_interface a = i4_interface x) by same read_number N W D F2. assert (E3 : i4_address a = i4_address x) by same read_prefix N W D F3. assert (E4 : i4_gateway a = i4_gateway x) by same read_address N W D F4.
    destruct a, x; cbn in *; congruence.
Qed.
Lemma res040_iff j x : plain j -> (dec_res040 j = Some x <-> doc040 j x).
Proof.
  intros P. unfold dec_res040, doc040. rewrite struct_object. split.
  - intros (o & O & D). exists o. split; [exact O|]. destruct (plain_object _ _ P O) as [N W].
    split; [one read_text N W D|]. split; [one (read_array _ _ (entry_iff _ _ if040_iff)) N W D|]. split; [one (read_array _ _ (entry_iff _ _ ipc040_iff)) N W D|]. split; [one (read_array _ _ (entry_iff _ _ route_iff)) N W D|]. one read_dns N W D.
  - intros (o & O & F1 & F2 & F3 & F4 & F5). exists o. split; [exact O|]. destruct (plain_object _ _ P O) as [N W]. total T o.
    { apply members_total. intros a k v I. take read_text N W F1 I. take (read_array _ _ (entry_iff _ _ if040_iff)) N W F2 I. take (read_array _ _ (entry_iff _ _ ipc040_iff)) N W F3 I. take (read_array _ _ (entry_iff _ _ route_iff)) N W F4 I. take read_dns N W F5 I. eexists; reflexivity. }
    destruct T as [a D]. rewrite D. f_equal.
    assert (E1 : v4_version a = v4_version x) by same read_text N W D F1. assert (E2 : v4_interfaces a = v4_interfaces x) by same (read_array _ _ (entry_iff _ _ if040_iff)) N W D F2. assert (E3 : v4_ips a = v4_ips x) by same (read_array _ _ (entry_iff _ _ ipc040_iff)) N W D F3. assert (E4 : v4_routes a = v4_routes x) by same (read_array _ _ (entry_iff _ _ route_iff)) N W D F4. assert (E5 : v4_dns a = v4_dns x) by same read_dns N W D F5.
    destruct a, x; cbn in *; congruence.
Qed.
Lemma if100_iff j x : plain j -> (dec_if100 j = Some x <-> if_doc100 j x).
Proof.
  intros P. unfold dec_if100, if_doc100. rewrite struct_object. split.
  - intros (o & O & D). exists o. split; [exact O|]. destruct (plain_object _ _ P O) as [N W].
    split; [one read_text N W D|]. split; [one read_text N W D|]. split; [one read_integer N W D|]. split; [one read_text N W D|]. split; [one read_text N W D|]. one read_text N W D.
  - intros (o & O & F1 & F2 & F3 & F4 & F5 & F6). exists o. split; [exact O|]. destruct (plain_object _ _ P O) as [N W]. total T o.
    { apply members_total. intros a k v I. take read_text N W F1 I. take read_text N W F2 I. take read_integer N W F3 I. take read_text N W F4 I. take read_text N W F5 I. take read_text N W F6 I. eexists; reflexivity. }
    destruct T as [a D]. rewrite D. f_equal.
    assert (E1 : if1_name a = if1_name x) by same read_text N W D F1. assert (E2 : if1_mac a = if1_mac x) by same read_text N W D F2. assert (E3 : if1_mtu a = if1_mtu x) by same read_integer N W D F3. assert (E4 : if1_sandbox a = if1_sandbox x) by same read_text N W D F4. assert (E5 : if1_socket a = if1_socket x) by same read_text N W D F5. assert (E6 : if1_pci a = if1_pci x) by same read_text N W D F6.
    destruct a, x; cbn in *; congruence.
Qed.
Lemma ipc100_iff j x : plain j -> (dec_ipc100 j = Some x <-> ip_doc100 j x).
Proof.
  intros P. unfold dec_ipc100, ip_doc100. rewrite struct_object. split.
  - intros (o & O & D). exists o. split; [exact O|]. destruct (plain_object _ _ P O) as [N W].
    split; [one read_number N W D|]. split; [one read_prefix N W D|]. one read_address N W D.
  - intros (o & O & F1 & F2 & F3). exists o. split; [exact O|]. destruct (plain_object _ _ P O) as [N W]. total T o.
    { apply members_total. intros a k v I. take read_number N W F1 I. take read_prefix N W F2 I. take read_address N W F3 I. eexists; reflexivity. }
    destruct T as [a D]. rewrite D. f_equal.
    assert (E1 : i1_interface a = i1_interface x) by same read_number N W D F1. assert (E2 : i1_address a = i1_address x) by same read_prefix N W D F2. assert (E3 : i1_gateway a = i1_gateway x) by same read_address N W D F3.
    destruct a, x; cbn in *; congruence.
Qed.
Lemma res100_iff j x : plain j -> (dec_res100 j = Some x <-> doc100 j x).
Proof.
  intros P. unfold dec_res100, doc100. rewrite struct_object. split.
  - intros (o & O & D). exists o. split; [exact O|]. destruct (plain_object _ _ P O) as [N W].
    split; [one read_text N W D|]. split; [one (read_array _ _ (entry_iff _ _ if100_iff)) N W D|]. split; [one (read_array _ _ (entry_iff _ _ ipc100_iff)) N W D|]. split; [one (read_array _ _ (entry_iff _ _ route_iff)) N W D|]. one read_dns N W D.
  - intros (o & O & F1 & F2 & F3 & F4 & F5). exists o. split; [exact O|]. destruct (plain_object _ _ P O) as [N W]. total T o.
    { apply members_total. intros a k v I. take read_text N W F1 I. take (read_array _ _ (entry_iff _ _ if100_iff)) N W F2 I. take (read_array _ _ (entry_iff _ _ ipc100_iff)) N W F3 I. take (read_array _ _ (entry_iff _ _ route_iff)) N W F4 I. take read_dns N W F5 I. eexists; reflexivity. }
    destruct T as [a D]. rewrite D. f_equal.
    assert (E1 : v1_version a = v1_version x) by same read_text N W D F1. assert (E2 : v1_interfaces a = v1_interfaces x) by same (read_array _ _ (entry_iff _ _ if100_iff)) N W D F2. assert (E3 : v1_ips a = v1_ips x) by same (read_array _ _ (entry_iff _ _ ipc100_iff)) N W D F3. assert (E4 : v1_routes a = v1_routes x) by same (read_array _ _ (entry_iff _ _ route_iff)) N W D F4. assert (E5 : v1_dns a = v1_dns x) by same read_dns N W D F5.
    destruct a, x; cbn in *; congruence.
Qed.
