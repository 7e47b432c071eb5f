(** The heap converters: they compute what the value converters compute, and what they share. *)
From Coq Require Import String List Bool Arith NArith ZArith Lia.
From Verif Require Import Model.GoStr Model.Errors Model.NetIP Model.Types Model.Heap Proofs.StrP.
Import ListNotations.
Open Scope nat_scope.
Open Scope string_scope.

(** ** Readers depend only on the cells they report *)
Definition agree (o d : list loc) (h h' : heap) : Prop := forall l, In l o \/ In l d -> nth_error h' l = nth_error h l.
Definition good {A} (m : reader A) : Prop := forall h a o d, m h = Some (a, o, d) ->
  (forall l, In l o -> exists c, nth_error h l = Some c /\ is_bytes c = false) /\
  (forall l, In l d -> exists b, nth_error h l = Some (CBytes b)) /\
  (forall h', agree o d h h' -> m h' = Some (a, o, d)).
Lemma good_ret A (a : A) : good (rret a).
Proof. intros h x o d E. injection E as <- <- <-. repeat split; try (intros l []). Qed.
Lemma good_fail A : good (@rfail A).
Proof. intros h x o d E. discriminate. Qed.
Lemma good_then A B (m : reader A) (f : A -> reader B) : good m -> (forall a, good (f a)) -> good (rthen m f).
Proof.
  intros M F h b o d E. unfold rthen in E. destruct (m h) as [[[a o1] d1]|] eqn:E1; [|discriminate].
  destruct (f a h) as [[[b2 o2] d2]|] eqn:E2; [|discriminate]. injection E as <- <- <-.
  destruct (M _ _ _ _ E1) as (A1 & A2 & A3). destruct (F _ _ _ _ _ E2) as (B1 & B2 & B3).
  split; [|split].
  - intros l I. apply in_app_or in I as [I|I]; auto.
  - intros l I. apply in_app_or in I as [I|I]; auto.
  - intros h' G. unfold rthen. rewrite (A3 h'), (B3 h'); [reflexivity| |]; intros l I; apply G; rewrite !in_app_iff; tauto.
Qed.
Lemma good_look l : good (look l).
Proof.
  intros h a o d E. unfold look in E. destruct (nth_error h l) as [c|] eqn:N; [|discriminate]. destruct (is_bytes c) eqn:B; [discriminate|].
  injection E as <- <- <-. split; [|split].
  - intros l' [->|[]]. eauto.
  - intros l' [].
  - intros h' G. unfold look. rewrite (G l), N, B; [reflexivity|left; now left].
Qed.
Lemma good_look_bytes l : good (look_bytes l).
Proof.
  intros h a o d E. unfold look_bytes in E. destruct (nth_error h l) as [[]|] eqn:N; try discriminate.
  injection E as <- <- <-. split; [|split].
  - intros l' [].
  - intros l' [->|[]]. eauto.
  - intros h' G. unfold look_bytes. rewrite (G l), N; [reflexivity|right; now left].
Qed.
Lemma good_list A B (f : A -> reader B) l : (forall a, good (f a)) -> good (rd_list f l).
Proof. intros F. induction l as [|a l IH]; cbn [rd_list]; [apply good_ret|]. apply good_then; [apply F|]. intros b. apply good_then; [exact IH|]. intros. apply good_ret. Qed.
Ltac goods := repeat (match goal with
  | |- good (rret _) => apply good_ret
  | |- good rfail => apply good_fail
  | |- good (look _) => apply good_look
  | |- good (look_bytes _) => apply good_look_bytes
  | |- good (rthen _ _) => apply good_then; [|intros ?]
  | |- good (match ?x with _ => _ end) => destruct x
  | |- good (rd_list _ _) => apply good_list; intros ?
  end).
Lemma good_bytes s : good (rd_bytes s). Proof. unfold rd_bytes. goods. Qed.
Lemma good_net n : good (rd_net n). Proof. unfold rd_net. goods; apply good_bytes. Qed.
Lemma good_strs s : good (rd_strs s). Proof. unfold rd_strs. goods. Qed.
Lemma good_int s : good (rd_int s). Proof. unfold rd_int. goods. Qed.
Lemma good_dns s : good (rd_dns s). Proof. unfold rd_dns. goods; apply good_strs. Qed.
Lemma good_route s : good (rd_route s). Proof. unfold rd_route. goods; auto using good_net, good_bytes, good_int. Qed.
Lemma good_ptr A (f : loc -> reader A) p : (forall l, good (f l)) -> good (rd_ptr f p). Proof. intros F. unfold rd_ptr. goods; auto. Qed.
Lemma good_ptrs A (f : loc -> reader A) p : (forall l, good (f l)) -> good (rd_ptrs f p). Proof. intros F. unfold rd_ptrs. goods; auto using good_ptr. Qed.
Lemma good_route_at l : good (rd_route_at l). Proof. unfold rd_route_at. goods; auto using good_route. Qed.
Lemma good_routes l : good (rd_routes l). Proof. unfold rd_routes. goods; auto using good_route. Qed.
Lemma good_if4 l : good (rd_if4 l). Proof. unfold rd_if4. goods. Qed.
Lemma good_if1 l : good (rd_if1 l). Proof. unfold rd_if1. goods. Qed.
Lemma good_ipc2 l : good (rd_ipc2 l). Proof. unfold rd_ipc2. goods; auto using good_net, good_bytes, good_routes. Qed.
Lemma good_ipc4 l : good (rd_ipc4 l). Proof. unfold rd_ipc4. goods; auto using good_net, good_bytes, good_int. Qed.
Lemma good_ipc1 l : good (rd_ipc1 l). Proof. unfold rd_ipc1. goods; auto using good_net, good_bytes, good_int. Qed.
#[global] Hint Resolve good_bytes good_net good_strs good_int good_dns good_route good_ptr good_ptrs good_route_at good_routes good_if4 good_if1 good_ipc2 good_ipc4 good_ipc1 good_list : good.
Lemma good_res2 r : good (rd_res2 r). Proof. unfold rd_res2. goods; auto with good. Qed.
Lemma good_res4 r : good (rd_res4 r). Proof. unfold rd_res4. goods; auto with good. Qed.
Lemma good_res1 r : good (rd_res1 r). Proof. unfold rd_res1. goods; auto with good. Qed.
#[global] Hint Resolve good_res2 good_res4 good_res1 : good.
Lemma good_result p : good (rd_result p). Proof. unfold rd_result. goods; auto with good. Qed.

(** ** Allocation *)
Definition ext (h h' : heap) : Prop := exists t, h' = (h ++ t)%list.
Lemma ext_refl h : ext h h. Proof. exists []. now rewrite app_nil_r. Qed.
Lemma ext_trans a b c : ext a b -> ext b c -> ext a c. Proof. intros [t ->] [u ->]. exists (t ++ u)%list. now rewrite app_assoc. Qed.
Lemma ext_one h c : ext h (h ++ [c])%list. Proof. now exists [c]. Qed.
Lemma ext_length h h' : ext h h' -> List.length h <= List.length h'. Proof. intros [t ->]. rewrite app_length. lia. Qed.
Lemma read_ext A (m : reader A) h h' x : good m -> m h = Some x -> ext h h' -> m h' = Some x.
Proof.
  intros G E [t ->]. destruct x as [[a o] d]. destruct (G _ _ _ _ E) as (A1 & A2 & A3). apply A3.
  intros l [I|I]; apply nth_error_app1; apply nth_error_Some; [destruct (A1 l I) as (c & -> & _)|destruct (A2 l I) as (c & ->)]; discriminate.
Qed.
Lemma read_below A (m : reader A) h a o d : good m -> m h = Some (a, o, d) -> Forall (fun l => l < List.length h) (o ++ d)%list.
Proof.
  intros G E. destruct (G _ _ _ _ E) as (A1 & A2 & _). apply Forall_forall. intros l I. apply nth_error_Some.
  apply in_app_or in I as [I|I]; [destruct (A1 l I) as (c & -> & _)|destruct (A2 l I) as (c & ->)]; discriminate.
Qed.

(** [sim n h m rd rv ad]: running [m] in [h] has the outcome [rv]; a value is built in newly
    allocated cells, at or above [n], but for byte arrays, which are among [ad]. *)
Definition above (n : nat) (o : list loc) : Prop := Forall (fun l => n <= l) o.
Definition sim {A B} (n : nat) (h : heap) (m : hm A) (rd : A -> reader B) (rv : res B) (ad : list loc) : Prop :=
  match rv with
  | Ok b => exists h' a o d, m h = Ok (h', a) /\ ext h h' /\ rd a h' = Some (b, o, d) /\ above n o /\ incl d ad
  | Err e => m h = Err e
  | Panic => m h = Panic
  end.
Lemma sim_then A B C D n h (m : hm A) (k : A -> hm B) (rd : A -> reader C) (rd' : B -> reader D) rv kv ad :
  sim n h m rd rv ad ->
  (forall b h1 a o d, rv = Ok b -> ext h h1 -> rd a h1 = Some (b, o, d) -> above n o -> incl d ad -> sim n h1 (k a) rd' (kv b) ad) ->
  sim n h (hthen m k) rd' (rbind rv kv) ad.
Proof.
  intros M K. destruct rv as [b|e|]; cbn [rbind sim] in *.
  - destruct M as (h1 & a & o & d & E & X & R & F & I). specialize (K b h1 a o d eq_refl X R F I).
    unfold hthen, sim in *. rewrite E. destruct (kv b); [|exact K|exact K]. destruct K as (h2 & a2 & o2 & d2 & E2 & X2 & K). exists h2, a2, o2, d2. split; [exact E2|].
    split; [eapply ext_trans; eassumption|exact K].
  - unfold hthen. now rewrite M.
  - unfold hthen. now rewrite M.
Qed.
Lemma sim_ok A B C D n h (m : hm A) (k : A -> hm B) (rd : A -> reader C) (rd' : B -> reader D) b rv ad :
  sim n h m rd (Ok b) ad ->
  (forall h1 a o d, ext h h1 -> rd a h1 = Some (b, o, d) -> above n o -> incl d ad -> sim n h1 (k a) rd' rv ad) ->
  sim n h (hthen m k) rd' rv ad.
Proof.
  intros M K. change rv with (rbind (Ok b) (fun _ => rv)). eapply sim_then; [exact M|]. intros b' h1 a o d E. injection E as <-. apply K.
Qed.
(** Reading the heap without changing it. *)
Lemma sim_pure A B D n h (m : hm A) (k : A -> hm B) (rd' : B -> reader D) a rv ad :
  m h = Ok (h, a) -> sim n h (k a) rd' rv ad -> sim n h (hthen m k) rd' rv ad.
Proof. intros E S. unfold sim, hthen in *. rewrite E. exact S. Qed.
Lemma sim_ret A B n h (a : A) (rd : A -> reader B) b o d ad : rd a h = Some (b, o, d) -> above n o -> incl d ad -> sim n h (hret a) rd (Ok b) ad.
Proof. intros R F I. exists h, a, o, d. split; [reflexivity|]. split; [apply ext_refl|]. auto. Qed.
Lemma nth_last (h : heap) c : nth_error (h ++ [c]) (List.length h) = Some c.
Proof. rewrite nth_error_app2 by lia. now rewrite Nat.sub_diag. Qed.
(** Allocating a cell whose contents are read by [rd]. *)
Lemma sim_alloc B n h c (f : cell -> reader B) b o d ad : is_bytes c = false -> n <= List.length h -> good (f c) -> f c h = Some (b, o, d) -> above n o -> incl d ad ->
  sim n h (alloc c) (fun l => read x := look l in f x) (Ok b) ad.
Proof.
  intros C N G R F I. exists (h ++ [c])%list, (List.length h), (List.length h :: o), d. split; [reflexivity|]. split; [apply ext_one|]. split.
  - unfold rthen, look. rewrite nth_last, C. rewrite (read_ext _ _ _ _ _ G R (ext_one h c)). reflexivity.
  - split; [|exact I]. constructor; [exact N|exact F].
Qed.
Lemma above_app n a b : above n a -> above n b -> above n (a ++ b)%list.
Proof. intros. apply Forall_app. now split. Qed.
Lemma incl_both {A} (a b c : list A) : incl a c -> incl b c -> incl (a ++ b)%list c.
Proof. apply incl_app. Qed.
(** Taking a successful read apart. *)
Lemma then_inv A B (m : reader A) (f : A -> reader B) h b o d : rthen m f h = Some (b, o, d) ->
  exists a o1 d1 o2 d2, m h = Some (a, o1, d1) /\ f a h = Some (b, o2, d2) /\ o = (o1 ++ o2)%list /\ d = (d1 ++ d2)%list.
Proof.
  unfold rthen. destruct (m h) as [[[a o1] d1]|]; [|discriminate]. destruct (f a h) as [[[b2 o2] d2]|] eqn:E; [|discriminate].
  intros X. injection X as <- <- <-. exists a, o1, d1, o2, d2. auto.
Qed.
Lemma ret_inv A (a b : A) h o d : rret a h = Some (b, o, d) -> b = a /\ o = [] /\ d = [].
Proof. intros E. injection E as <- <- <-. auto. Qed.
Lemma look_inv l h c o d : look l h = Some (c, o, d) -> load l h = Ok (h, c) /\ o = [l] /\ d = [] /\ is_bytes c = false.
Proof. unfold look, load. destruct (nth_error h l) as [x|]; [|discriminate]. destruct (is_bytes x) eqn:B; [discriminate|]. intros E. injection E as <- <- <-. auto. Qed.
Lemma incl_app_l {A} (a b c : list A) : incl (a ++ b)%list c -> incl a c. Proof. intros H x I. apply H. apply in_or_app. now left. Qed.
Lemma incl_app_r {A} (a b c : list A) : incl (a ++ b)%list c -> incl b c. Proof. intros H x I. apply H. apply in_or_app. now right. Qed.

(** ** Lists *)
Fixpoint mapr {A B} (f : A -> res B) (l : list A) : res (list B) :=
  match l with
  | [] => Ok []
  | a :: l' => rbind (f a) (fun b => rbind (mapr f l') (fun bs => Ok (b :: bs)))
  end.
Lemma mapr_ok A B (f : A -> B) l : mapr (fun a => Ok (f a)) l = Ok (map f l).
Proof. induction l as [|a l IH]; [reflexivity|]. cbn [mapr map rbind]. rewrite IH. reflexivity. Qed.
Definition dereferenced {A B} (f : A -> B) (o : option A) : res (option B) := match o with None => Panic | Some a => Ok (Some (f a)) end.
Lemma mapr_deref A B (f : A -> B) l : mapr (dereferenced f) l = map_deref f l.
Proof. induction l as [|[a|] l IH]; [reflexivity| |reflexivity]. cbn [mapr map_deref dereferenced rbind]. rewrite IH. reflexivity. Qed.
Lemma rd_list_cons A B (f : A -> reader B) b bs a l h o1 d1 o2 d2 : f a h = Some (b, o1, d1) -> rd_list f l h = Some (bs, o2, d2) ->
  rd_list f (a :: l) h = Some (b :: bs, (o1 ++ o2)%list, (d1 ++ d2)%list).
Proof. intros E1 E2. cbn [rd_list]. unfold rthen, rret. rewrite E1, E2. now rewrite !app_nil_r. Qed.
Lemma sim_map A B A' B' n ad (f : A -> hm A') (rd : A -> reader B) (rd' : A' -> reader B') (g : B -> res B') :
  (forall x, good (rd x)) -> (forall x, good (rd' x)) ->
  (forall h x b o d, n <= List.length h -> rd x h = Some (b, o, d) -> incl d ad -> sim n h (f x) rd' (g b) ad) ->
  forall l h bs o d, n <= List.length h -> rd_list rd l h = Some (bs, o, d) -> incl d ad -> sim n h (hmap f l) (rd_list rd') (mapr g bs) ad.
Proof.
  intros G G' F. induction l as [|a l IH]; intros h bs o d N E I.
  - cbn [rd_list] in E. apply ret_inv in E as (-> & -> & ->). cbn [hmap mapr]. apply (sim_ret _ _ n h [] (rd_list rd') [] [] [] ad); [reflexivity|constructor|intros x []].
  - cbn [rd_list] in E. apply then_inv in E as (b & o1 & d1 & o2 & d2 & E1 & E2 & -> & ->).
    apply then_inv in E2 as (bt & o3 & d3 & o4 & d4 & E3 & E4 & -> & ->). apply ret_inv in E4 as (-> & -> & ->). rewrite app_nil_r in I.
    cbn [hmap mapr]. eapply sim_then; [exact (F h a b o1 d1 N E1 (incl_app_l _ _ _ I))|].
    intros b' h1 a' o' d' EG X R AB IN. eapply sim_then.
    + apply (IH h1 bt o3 d3); [apply ext_length in X; lia| |exact (incl_app_r _ _ _ I)]. eapply read_ext; [apply good_list; exact G|exact E3|exact X].
    + intros bs' h2 l' o'' d'' EM X2 R2 AB2 IN2. eapply sim_ret; [apply rd_list_cons; [eapply read_ext; [apply G'|exact R|exact X2]|exact R2]|apply above_app; eassumption|apply incl_both; eassumption].
Qed.

(** ** Copies *)
Lemma then_ok A B (m : reader A) (f : A -> reader B) h a b o1 d1 o2 d2 : m h = Some (a, o1, d1) -> f a h = Some (b, o2, d2) ->
  rthen m f h = Some (b, (o1 ++ o2)%list, (d1 ++ d2)%list).
Proof. intros E1 E2. unfold rthen. now rewrite E1, E2. Qed.
Lemma bytes_own s h b o d : rd_bytes s h = Some (b, o, d) -> o = [].
Proof. destruct s as [l|]; cbn [rd_bytes]; intros E; [|apply ret_inv in E; tauto]. unfold look_bytes in E. destruct (nth_error h l) as [[]|]; try discriminate. now injection E. Qed.
Lemma net_own s h b o d : rd_net s h = Some (b, o, d) -> o = [].
Proof.
  unfold rd_net. intros E. apply then_inv in E as (x & o1 & d1 & o2 & d2 & E1 & E2 & -> & ->). apply then_inv in E2 as (y & o3 & d3 & o4 & d4 & E3 & E4 & -> & ->).
  apply bytes_own in E1, E3. apply ret_inv in E4 as (-> & -> & ->). now subst.
Qed.
Ltac apart := repeat match goal with
  | E : rthen _ _ _ = Some _ |- _ => let x := fresh "x" in let o1 := fresh "o" in let d1 := fresh "d" in let o2 := fresh "o" in let d2 := fresh "d" in
      let E1 := fresh "E" in let E2 := fresh "E" in apply then_inv in E as (x & o1 & d1 & o2 & d2 & E1 & E2 & -> & ->); try (apply ret_inv in E2 as (-> & -> & ->))
  | E : look _ _ = Some _ |- _ => apply look_inv in E as (E & -> & -> & ?)
  | E : rfail _ = Some _ |- _ => discriminate E
  | E : rret _ _ = Some _ |- _ => apply ret_inv in E as (-> & -> & ->)
  | E : match ?c with _ => _ end _ = Some _ |- _ => destruct c; try discriminate E
  | E : rd_bytes _ _ = Some (_, ?o, _) |- _ => is_var o; let K := fresh in pose proof (bytes_own _ _ _ _ _ E) as K; subst o
  | E : rd_net _ _ = Some (_, ?o, _) |- _ => is_var o; let K := fresh in pose proof (net_own _ _ _ _ _ E) as K; subst o
  end.
Ltac incls := repeat match goal with
  | I : incl (_ ++ _)%list _ |- _ => let I2 := fresh I in pose proof (incl_app_l _ _ _ I) as I2; apply incl_app_r in I
  end.
Ltac lift X := match type of X with ext ?h ?h1 =>
  repeat match goal with
  | R : ?m h = Some ?x |- _ => let R' := fresh "R" in assert (R' : m h1 = Some x) by (refine (read_ext _ m h h1 _ _ R X); auto with good); clear R
  | N : ?n <= Datatypes.length h |- _ => let N' := fresh "N" in assert (N' : n <= Datatypes.length h1) by (apply ext_length in X; lia); clear N
  end; clear X end.
Ltac reads := repeat (first [eassumption | reflexivity | eapply then_ok]).
Ltac owned := repeat (first [eassumption | apply above_app | apply incl_both | constructor | (intros ? []; fail)]).
Ltac nilincl := intros ? [].
Ltac close := first [eassumption | apply Forall_nil | apply incl_nil_l | apply above_app; close | apply incl_both; close | apply Forall_cons; [lia|close] ].

Lemma sim_int n ad h p b o d : n <= Datatypes.length h -> rd_int p h = Some (b, o, d) -> incl d ad -> sim n h (copy_int p) rd_int (Ok b) ad.
Proof.
  intros N E I. destruct p as [l|]; cbn [rd_int copy_int] in *; apart.
  - eapply sim_pure; [exact E0|]. cbv iota. exists (h ++ [CInt z])%list, (Some (Datatypes.length h)), [Datatypes.length h], [].
    split; [reflexivity|]. split; [apply ext_one|]. split; [|split; [repeat constructor; exact N|nilincl]].
    cbn [rd_int]. unfold rthen, look, rret. rewrite nth_last. reflexivity.
  - eapply sim_ret; [reflexivity|constructor|nilincl].
Qed.
Lemma sim_strs n ad h p b o d : n <= Datatypes.length h -> rd_strs p h = Some (b, o, d) -> incl d ad -> sim n h (copy_strs p) rd_strs (Ok b) ad.
Proof.
  intros N E I. destruct p as [l|]; cbn [rd_strs copy_strs] in *; apart.
  - eapply sim_pure; [exact E0|]. cbv iota. destruct l0 as [|s l0]; [eapply sim_ret; [reflexivity|constructor|nilincl]|].
    exists (h ++ [CStrs (s :: l0)])%list, (Some (Datatypes.length h)), [Datatypes.length h], [].
    split; [reflexivity|]. split; [apply ext_one|]. split; [|split; [repeat constructor; exact N|nilincl]].
    cbn [rd_strs]. unfold rthen, look, rret. rewrite nth_last. reflexivity.
  - eapply sim_ret; [reflexivity|constructor|nilincl].
Qed.
Ltac next L := eapply sim_ok; [eapply L; [eassumption|eassumption|eassumption]|];
  let h1 := fresh "h1" in let a := fresh "a" in let o := fresh "o" in let d := fresh "d" in let X := fresh "X" in let R := fresh "R" in let AB := fresh "AB" in let IN := fresh "IN" in
  intros h1 a o d X R AB IN; lift X.
Lemma sim_dns n ad h p b o d : n <= Datatypes.length h -> rd_dns p h = Some (b, o, d) -> incl d ad -> sim n h (copy_dns p) rd_dns (Ok (dns_copy b)) ad.
Proof.
  intros N E I. unfold rd_dns in E. apart. incls. unfold copy_dns. next sim_strs. next sim_strs. next sim_strs.
  eapply sim_ret; [unfold rd_dns; cbn [hd_nameservers hd_domain hd_search hd_options]; reads| |]; close.
Qed.
Lemma sim_route n ad h p b o d : n <= Datatypes.length h -> rd_route p h = Some (b, o, d) -> incl d ad -> sim n h (copy_route p) rd_route (Ok (route_copy b)) ad.
Proof.
  intros N E I. unfold rd_route in E. apart. incls. unfold copy_route. next sim_int. next sim_int.
  eapply sim_ret; [unfold rd_route; cbn [hr_dst hr_gw hr_mtu hr_advmss hr_priority hr_table hr_scope]; reads| |]; close.
Qed.
Ltac cellread := cbv iota; reads.
Lemma sim_route_at n ad h p b o d : n <= Datatypes.length h -> rd_route_at p h = Some (b, o, d) -> incl d ad -> sim n h (copy_route_at p) rd_route_at (Ok (route_copy b)) ad.
Proof.
  intros N E I. unfold rd_route_at in E. apart. incls. unfold copy_route_at. eapply sim_pure; [eassumption|]. cbv iota.
  next sim_route. eapply (sim_alloc _ n h1 (CRoute a) (fun c => match c with CRoute r => rd_route r | _ => rfail end)); [reflexivity|assumption|auto with good|eassumption|close|close].
Qed.
Lemma sim_if_not_nil A B n ad h (f : loc -> hm loc) (rd : loc -> reader A) (rd' : loc -> reader B) (g : A -> B) p b o d :
  (forall l, good (rd l)) -> (forall l, good (rd' l)) ->
  (forall h l b o d, n <= Datatypes.length h -> rd l h = Some (b, o, d) -> incl d ad -> sim n h (f l) rd' (Ok (g b)) ad) ->
  n <= Datatypes.length h -> rd_ptr rd p h = Some (b, o, d) -> incl d ad -> sim n h (if_not_nil f p) (rd_ptr rd') (Ok (option_map g b)) ad.
Proof.
  intros G G' F N E I. destruct p as [l|]; cbn [rd_ptr if_not_nil] in *; apart.
  - rewrite app_nil_r in I. eapply sim_ok; [eapply F; eassumption|]. intros h1 a o1 d1 X R AB IN. cbn [option_map].
    eapply sim_ret; [cbn [rd_ptr]; reads| |]; close.
  - eapply sim_ret; [reflexivity|constructor|nilincl].
Qed.
Lemma sim_deref A B n ad h (f : loc -> hm loc) (rd : loc -> reader A) (rd' : loc -> reader B) (g : A -> B) p b o d :
  (forall l, good (rd l)) -> (forall l, good (rd' l)) ->
  (forall h l b o d, n <= Datatypes.length h -> rd l h = Some (b, o, d) -> incl d ad -> sim n h (f l) rd' (Ok (g b)) ad) ->
  n <= Datatypes.length h -> rd_ptr rd p h = Some (b, o, d) -> incl d ad -> sim n h (deref f p) (rd_ptr rd') (dereferenced g b) ad.
Proof.
  intros G G' F N E I. destruct p as [l|]; cbn [rd_ptr deref] in *; apart; cbn [dereferenced].
  - rewrite app_nil_r in I. eapply sim_ok; [eapply F; eassumption|]. intros h1 a o1 d1 X R AB IN.
    eapply sim_ret; [cbn [rd_ptr]; reads| |]; close.
  - reflexivity.
Qed.
(** The array behind a slice. *)
Lemma ptrs_inv A (rd : loc -> reader A) s h b o d : rd_ptrs rd s h = Some (b, o, d) ->
  exists l o', ptrs_of s h = Ok (h, l) /\ rd_list (rd_ptr rd) l h = Some (b, o', d) /\ incl o' o.
Proof.
  destruct s as [p|]; cbn [rd_ptrs ptrs_of]; intros E; apart.
  - exists l. eexists. split; [unfold hthen; rewrite E0; reflexivity|]. split; [exact E1|]. intros x I. now right.
  - exists [], []. split; [reflexivity|]. split; [reflexivity|nilincl].
Qed.
Lemma sim_slice_of A n ad h (rd : loc -> reader A) l b o d : (forall l, good (rd l)) -> n <= Datatypes.length h -> rd_list (rd_ptr rd) l h = Some (b, o, d) -> above n o -> incl d ad ->
  sim n h (slice_of l) (rd_ptrs rd) (Ok b) ad.
Proof.
  intros G N E AB I. destruct l as [|p l].
  - cbn [rd_list] in E. apart. eapply sim_ret; [reflexivity|constructor|nilincl].
  - cbn [slice_of]. exists (h ++ [CPtrs (p :: l)])%list, (Some (Datatypes.length h)), (Datatypes.length h :: o), d.
    split; [reflexivity|]. split; [apply ext_one|]. split; [|split; [constructor; assumption|exact I]].
    cbn [rd_ptrs]. unfold rthen at 1, look. rewrite nth_last. cbn [is_bytes]. cbv iota.
    rewrite (read_ext _ _ _ _ _ (good_list _ _ _ _ (fun p => good_ptr _ _ _ G)) E (ext_one _ _)). reflexivity.
Qed.
Lemma sim_slice_some A n ad h (rd : loc -> reader A) l b o d : (forall l, good (rd l)) -> n <= Datatypes.length h -> rd_list (rd_ptr rd) l h = Some (b, o, d) -> above n o -> incl d ad ->
  sim n h (slice_some l) (rd_ptrs rd) (Ok b) ad.
Proof.
  intros G N E AB I. exists (h ++ [CPtrs l])%list, (Some (Datatypes.length h)), (Datatypes.length h :: o), d.
  split; [reflexivity|]. split; [apply ext_one|]. split; [|split; [constructor; assumption|exact I]].
  cbn [rd_ptrs]. unfold rthen at 1, look. rewrite nth_last. cbn [is_bytes]. cbv iota.
  rewrite (read_ext _ _ _ _ _ (good_list _ _ _ _ (fun p => good_ptr _ _ _ G)) E (ext_one _ _)). reflexivity.
Qed.
Lemma sim_convert_slice A B n ad h (f : ptr -> hm ptr) (rd : loc -> reader A) (rd' : loc -> reader B) (g : option A -> res (option B)) s b o d :
  (forall l, good (rd l)) -> (forall l, good (rd' l)) ->
  (forall h p b o d, n <= Datatypes.length h -> rd_ptr rd p h = Some (b, o, d) -> incl d ad -> sim n h (f p) (rd_ptr rd') (g b) ad) ->
  n <= Datatypes.length h -> rd_ptrs rd s h = Some (b, o, d) -> incl d ad -> sim n h (convert_slice f s) (rd_ptrs rd') (mapr g b) ad.
Proof.
  intros G G' F N E I. apply ptrs_inv in E as (l & o' & E & R & _). unfold convert_slice. eapply sim_pure; [exact E|].
  replace (mapr g b) with (rbind (mapr g b) Ok) by (destruct (mapr g b); reflexivity).
  eapply sim_then; [eapply sim_map; [| |exact F|exact N|exact R|exact I]; intros; apply good_ptr; assumption|].
  intros b' h1 l' o1 d1 _ X R1 AB IN. apply ext_length in X. eapply sim_slice_of; [assumption|lia|eassumption..].
Qed.
Lemma sim_copy_routes n ad h s b o d : n <= Datatypes.length h -> rd_ptrs rd_route_at s h = Some (b, o, d) -> incl d ad ->
  sim n h (copy_routes s) (rd_ptrs rd_route_at) (Ok (map (option_map route_copy) b)) ad.
Proof.
  intros N E I. apply ptrs_inv in E as (l & o' & E & R & _). unfold copy_routes. eapply sim_pure; [exact E|].
  rewrite <- mapr_ok. replace (mapr _ b) with (rbind (mapr (fun a => Ok (option_map route_copy a)) b) Ok) by (destruct (mapr _ b); reflexivity).
  eapply sim_then; [eapply sim_map; [| |intros; eapply sim_if_not_nil; [| |intros; eapply sim_route_at; eassumption|..]|exact N|exact R|exact I]; intros; auto with good; eassumption|].
  intros b' h1 l' o1 d1 _ X R1 AB IN. apply ext_length in X. eapply sim_slice_some; [auto with good|lia|eassumption..].
Qed.

(** ** The converters of 0.1.0 and 0.2.0 *)
Lemma routes_inv s h b o d : rd_routes s h = Some (b, o, d) -> exists l o', routes_of s h = Ok (h, l) /\ rd_list rd_route l h = Some (b, o', d) /\ incl o' o.
Proof.
  destruct s as [p|]; cbn [rd_routes routes_of]; intros E; apart.
  - exists l. eexists. split; [unfold hthen; rewrite E0; reflexivity|]. split; [exact E1|]. intros x I. now right.
  - exists [], []. split; [reflexivity|]. split; [reflexivity|nilincl].
Qed.
Lemma sim_routes_slice n ad h l b o d : n <= Datatypes.length h -> rd_list rd_route l h = Some (b, o, d) -> above n o -> incl d ad ->
  sim n h (routes_slice l) rd_routes (Ok b) ad.
Proof.
  intros N E AB I. destruct l as [|p l].
  - cbn [rd_list] in E. apart. eapply sim_ret; [reflexivity|constructor|nilincl].
  - cbn [routes_slice]. exists (h ++ [CRoutes (p :: l)])%list, (Some (Datatypes.length h)), (Datatypes.length h :: o), d.
    split; [reflexivity|]. split; [apply ext_one|]. split; [|split; [constructor; assumption|exact I]].
    cbn [rd_routes]. unfold rthen at 1, look. rewrite nth_last. cbn [is_bytes]. cbv iota.
    rewrite (read_ext _ _ _ _ _ (good_list _ _ _ _ good_route) E (ext_one _ _)). reflexivity.
Qed.
Lemma sim_copied n ad h s b o d : n <= Datatypes.length h -> rd_routes s h = Some (b, o, d) -> incl d ad ->
  sim n h (run rs := routes_of s in run rs' := hmap copy_route rs in routes_slice rs') rd_routes (Ok (map route_copy b)) ad.
Proof.
  intros N E I. apply routes_inv in E as (l & o' & E & R & _). eapply sim_pure; [exact E|].
  rewrite <- mapr_ok. replace (mapr _ b) with (rbind (mapr (fun a => Ok (route_copy a)) b) Ok) by (destruct (mapr _ b); reflexivity).
  eapply sim_then; [eapply sim_map; [| |intros; eapply sim_route; eassumption|exact N|exact R|exact I]; intros; auto with good|].
  intros b' h1 l' o1 d1 _ X R1 AB IN. apply ext_length in X. eapply sim_routes_slice; [lia|eassumption..].
Qed.
Lemma hthen_assoc A B C (m : hm A) (f : A -> hm B) (g : B -> hm C) h : hthen (hthen m f) g h = hthen m (fun a => hthen (f a) g) h.
Proof. unfold hthen. destruct (m h) as [[h' a]| |]; reflexivity. Qed.
Lemma sim_assoc A B C D n ad h (m : hm A) (f : A -> hm B) (g : B -> hm C) (rd : C -> reader D) v :
  sim n h (hthen (hthen m f) g) rd v ad -> sim n h (hthen m (fun a => hthen (f a) g)) rd v ad.
Proof. unfold sim. now rewrite hthen_assoc. Qed.
Lemma sim_ext A B n ad h (m m' : hm A) (rd : A -> reader B) v : m h = m' h -> sim n h m rd v ad -> sim n h m' rd v ad.
Proof. unfold sim. now intros ->. Qed.
Lemma sim_ipc2 n ad h p b o d : n <= Datatypes.length h -> rd_ipc2 p h = Some (b, o, d) -> incl d ad -> sim n h (copy_ipc2_at p) rd_ipc2 (Ok (ipc020_copy b)) ad.
Proof.
  intros N E I. unfold rd_ipc2 in E. apart. incls. unfold copy_ipc2_at. eapply sim_pure; [eassumption|]. cbv iota.
  match goal with |- sim _ _ (hthen ?a (fun rs => hthen (@?b rs) (fun rs' => hthen (@?c rs') ?k))) _ _ _ =>
    apply (sim_ext _ _ _ _ _ (hthen (hthen a (fun rs => hthen (b rs) (fun rs' => c rs'))) k)) end.
  { rewrite hthen_assoc. unfold hthen. destruct (routes_of (h2_routes c) h) as [[]| |]; [|reflexivity..]. destruct (hmap copy_route _ _) as [[]| |]; reflexivity. }
  eapply sim_ok; [eapply sim_copied; eassumption|]. intros h1 a o1' d1' X R AB IN. lift X.
  eapply (sim_alloc _ n h1 (CIpc2 {| h2_ip := h2_ip c; h2_gateway := h2_gateway c; h2_routes := a |}) (fun c => match c with
  | CIpc2 c => read i := rd_net (h2_ip c) in read g := rd_bytes (h2_gateway c) in read rs := rd_routes (h2_routes c) in
      rret {| i2_ip := i; i2_gateway := g; i2_routes := rs |}
  | _ => rfail end)); [reflexivity|assumption|goods; auto with good|cbn [h2_ip h2_gateway h2_routes]; reads|close|close].
Qed.
Lemma conv010_sim only v n ad h p r o d to : n <= Datatypes.length h -> rd_result p h = Some (r, o, d) -> incl d ad ->
  sim n h (hconv010 only v p to) rd_result (conv010 only v r to) ad.
Proof.
  intros N E I. unfold hconv010, conv010. destruct (negb (String.eqb to only)); [reflexivity|].
  unfold rd_result in E. apart; (eapply sim_pure; [eassumption|]; cbv iota); [|reflexivity..].
  unfold rd_res2 in *. apart. incls.
  eapply sim_ok; [eapply sim_if_not_nil; [| |intros; eapply sim_ipc2; eassumption|..]; auto with good; eassumption|]. intros h1 a1 oa da X R AB IN. lift X.
  eapply sim_ok; [eapply sim_if_not_nil; [| |intros; eapply sim_ipc2; eassumption|..]; auto with good; eassumption|]. intros h2 a2 oa2 da2 X RR AB2 IN2. lift X.
  next sim_dns. unfold rd_result.
  match goal with |- sim _ ?h (alloc ?c) (fun p => rthen _ ?f) _ _ => eapply (sim_alloc _ n h c f) end; [reflexivity|assumption|goods; auto with good|unfold rd_res2; cbn [hv2_version hv2_ip4 hv2_ip6 hv2_dns]; reads|close|close].
Qed.
Ltac alloced n := match goal with |- sim _ ?h (alloc ?c) ?rd _ _ =>
  let rd' := eval cbv beta delta [rd_result rd_if4 rd_if1 rd_ipc2 rd_ipc4 rd_ipc1 rd_route_at] in rd in
  match rd' with (fun p => rthen _ ?f) => eapply (sim_alloc _ n h c f) end end;
  [reflexivity|assumption|goods; auto with good
  |unfold rd_res2, rd_res4, rd_res1; cbn [hv2_version hv2_ip4 hv2_ip6 hv2_dns hv_version hv_interfaces hv_ips hv_routes hv_dns h2_ip h2_gateway h2_routes h4_version h4_interface h4_address h4_gateway h1_interface h1_address h1_gateway]; reads
  |close|close].

(** ** The converters of 0.3.x and 0.4.0 *)
Definition rd_both {A B A' B'} (f : A -> reader A') (g : B -> reader B') (x : A * B) : reader (A' * B') :=
  read a := f (fst x) in read b := g (snd x) in rret (a, b).
Lemma good_both A B A' B' (f : A -> reader A') (g : B -> reader B') x : (forall a, good (f a)) -> (forall b, good (g b)) -> good (rd_both f g x).
Proof. intros F G. unfold rd_both. goods; auto. Qed.
#[global] Hint Resolve good_both : good.
Lemma list_app A B (f : A -> reader B) l1 : forall l2 h b1 b2 o1 o2 d1 d2, rd_list f l1 h = Some (b1, o1, d1) -> rd_list f l2 h = Some (b2, o2, d2) ->
  rd_list f (l1 ++ l2)%list h = Some ((b1 ++ b2)%list, (o1 ++ o2)%list, (d1 ++ d2)%list).
Proof.
  induction l1 as [|a l1 IH]; intros l2 h b1 b2 o1 o2 d1 d2 E1 E2.
  - cbn [rd_list] in E1. apply ret_inv in E1 as (-> & -> & ->). exact E2.
  - cbn [rd_list] in E1. apart. rewrite !app_nil_r. cbn [app]. rewrite <- !app_assoc. eapply rd_list_cons; [eassumption|]. eapply IH; [eassumption|exact E2].
Qed.
Definition part (c : option ipc020) (v : string) : list (option ipc040) * list (option route) :=
  match c with Some c => ([Some (conv020_ipc c v)], map (fun x => Some (route_copy x)) (i2_routes c)) | None => ([], []) end.
Lemma sim_family n ad h p v b o d : n <= Datatypes.length h -> rd_ptr rd_ipc2 p h = Some (b, o, d) -> incl d ad ->
  sim n h (hfamily p v) (rd_both (rd_list (rd_ptr rd_ipc4)) (rd_list (rd_ptr rd_route_at))) (Ok (part b v)) ad.
Proof.
  intros N E I. destruct p as [l|]; cbn [rd_ptr hfamily] in *; [|apart; eapply sim_ret; [reflexivity|constructor|nilincl]].
  apply then_inv in E as (c & o1 & d1 & o2 & d2 & E & E2 & -> & ->). apply ret_inv in E2 as (-> & -> & ->). rewrite app_nil_r in I.
  unfold rd_ipc2 in E. apart. incls. eapply sim_pure; [eassumption|]. cbv iota.
  eapply (sim_ok _ _ _ _ _ _ _ _ rd_ipc4).
  { unfold hconv020_ipc. alloced n. }
  intros h1 i oi di X R AB IN. lift X.
  match goal with H : rd_routes _ _ = Some _ |- _ => apply routes_inv in H as (rs & o' & Q & R' & _) end.
  eapply sim_pure; [eassumption|].
  eapply (sim_ok _ _ _ _ _ _ _ _ (rd_list (rd_ptr rd_route_at)) _ (map (fun x => Some (route_copy x)) x1)).
  { rewrite <- mapr_ok. eapply sim_map; [apply good_route|auto with good| |eassumption|eassumption|eassumption].
    intros. next sim_route. eapply (sim_ok _ _ _ _ _ _ _ _ rd_route_at).
    { alloced n. }
    intros h3 l' ol dl X RR AB3 IN3. lift X. eapply sim_ret; [cbn [rd_ptr]; reads|close|close]. }
  intros h2 rs' ors drs X RR AB2 IN2. lift X. cbn [part i2_routes].
  eapply sim_ret; [unfold rd_both; cbn [fst snd]; eapply then_ok; [cbn [rd_list rd_ptr]; reads|eapply then_ok; [eassumption|reflexivity]]|close|close].
Qed.
Lemma both_inv A B A' B' (f : A -> reader A') (g : B -> reader B') a b h x o d : rd_both f g (a, b) h = Some (x, o, d) ->
  exists o1 d1 o2 d2, f a h = Some (fst x, o1, d1) /\ g b h = Some (snd x, o2, d2) /\ o = (o1 ++ o2)%list /\ d = (d1 ++ d2)%list.
Proof.
  unfold rd_both. cbn [fst snd]. intros E. apply then_inv in E as (y & o1 & d1 & o2 & d2 & E1 & E2 & -> & ->).
  apply then_inv in E2 as (z & o3 & d3 & o4 & d4 & E3 & E4 & -> & ->). apply ret_inv in E4 as (-> & -> & ->). rewrite !app_nil_r.
  exists o1, d1, o3, d3. auto.
Qed.
Lemma above_l n a b : above n (a ++ b)%list -> above n a. Proof. intros H. apply Forall_app in H. tauto. Qed.
Lemma above_r n a b : above n (a ++ b)%list -> above n b. Proof. intros H. apply Forall_app in H. tauto. Qed.
Ltac aboves := repeat match goal with
  | I : above _ (_ ++ _)%list |- _ => let I2 := fresh I in pose proof (above_l _ _ _ I) as I2; apply above_r in I
  end.
Lemma from02x_eq r to : conv040_from02x (R020 r) to =
  Ok (R040 {| v4_version := to; v4_interfaces := []; v4_ips := (fst (part (v2_ip4 r) "4") ++ fst (part (v2_ip6 r) "6"))%list;
              v4_routes := (snd (part (v2_ip4 r) "4") ++ snd (part (v2_ip6 r) "6"))%list; v4_dns := dns_copy (v2_dns r) |}).
Proof. destruct r as [v [a|] [b|] d]; reflexivity. Qed.
Lemma conv040_from02x_sim n ad h p r o d to : n <= Datatypes.length h -> rd_result p h = Some (r, o, d) -> incl d ad ->
  sim n h (hconv040_from02x p to) rd_result (conv040_from02x r to) ad.
Proof.
  intros N E I. unfold hconv040_from02x. unfold rd_result in E. apart; (eapply sim_pure; [eassumption|]; cbv iota); [|reflexivity..].
  rewrite from02x_eq.
  unfold rd_res2 in *. apart. incls. cbn [v2_ip4 v2_ip6 v2_dns]. next sim_dns.
  eapply sim_ok; [eapply sim_family; eassumption|]. intros h2 [ips4 rt4] o4' d4' X R4 AB4 IN4. lift X.
  eapply sim_ok; [eapply sim_family; eassumption|]. intros h3 [ips6 rt6] o6' d6' X R6 AB6 IN6. lift X.
  repeat match goal with H : rd_both _ _ _ _ = Some _ |- _ => apply both_inv in H as (? & ? & ? & ? & ? & ? & -> & ->) end. incls. aboves.
  eapply (sim_ok _ _ _ _ _ _ _ _ (rd_ptrs rd_ipc4)); [eapply sim_slice_of; [auto with good|assumption|eapply list_app; eassumption|close|close]|].
  intros h4 si osi dsi X RI ABI INI. lift X.
  eapply (sim_ok _ _ _ _ _ _ _ _ (rd_ptrs rd_route_at)); [eapply sim_slice_some; [auto with good|assumption|eapply list_app; eassumption|close|close]|].
  intros h5 sq osq dsq X RQ ABQ INQ. lift X. alloced n.
Qed.
Lemma sim_if4 n ad h p b o d : n <= Datatypes.length h -> rd_if4 p h = Some (b, o, d) -> incl d ad -> sim n h (copy_if4_at p) rd_if4 (Ok b) ad.
Proof. intros N E I. unfold rd_if4 in E. apart. unfold copy_if4_at. eapply sim_pure; [eassumption|]. cbv iota. alloced n. Qed.
Lemma sim_ipc4 n ad h p b o d : n <= Datatypes.length h -> rd_ipc4 p h = Some (b, o, d) -> incl d ad -> sim n h (copy_ipc4_at p) rd_ipc4 (Ok b) ad.
Proof. intros N E I. unfold rd_ipc4 in E. apart. incls. unfold copy_ipc4_at. eapply sim_pure; [eassumption|]. cbv iota. next sim_int. alloced n. Qed.
Lemma mapr_same A (l : list (option A)) : mapr (fun a => Ok (option_map (fun x => x) a)) l = Ok l.
Proof. rewrite mapr_ok. f_equal. induction l as [|[a|] l IH]; cbn [map option_map]; [reflexivity| |]; now rewrite IH. Qed.
Lemma conv040_internal_sim n ad h p r o d to : n <= Datatypes.length h -> rd_result p h = Some (r, o, d) -> incl d ad ->
  sim n h (hconv040_internal p to) rd_result (conv040_internal r to) ad.
Proof.
  intros N E I. unfold hconv040_internal, conv040_internal. unfold rd_result in E. apart; (eapply sim_pure; [eassumption|]; cbv iota); [reflexivity| |reflexivity..].
  unfold rd_res4 in *. apart. incls. next sim_dns.
  eapply sim_ok; [rewrite <- mapr_same; eapply sim_convert_slice; [| |intros; eapply sim_if_not_nil; [| |intros; eapply sim_if4; eassumption|..]|..]; intros; auto with good; eassumption|].
  intros h2 i oi di X RI ABI INI. lift X.
  eapply sim_ok; [rewrite <- mapr_same; eapply sim_convert_slice; [| |intros; eapply sim_if_not_nil; [| |intros; eapply sim_ipc4; eassumption|..]|..]; intros; auto with good; eassumption|].
  intros h3 a3 o3' d3' X RA ABA INA. lift X. next sim_copy_routes. alloced n.
Qed.
Definition rd_opt {A B} (f : A -> reader B) (x : option A) : reader (option B) :=
  match x with None => rret None | Some a => read b := f a in rret (Some b) end.
Definition rd_addr (c : hipc2) : reader ipc020 :=
  read i := rd_net (h2_ip c) in read g := rd_bytes (h2_gateway c) in rret {| i2_ip := i; i2_gateway := g; i2_routes := [] |}.
Lemma good_opt A B (f : A -> reader B) x : (forall a, good (f a)) -> good (rd_opt f x). Proof. intros F. unfold rd_opt. goods; auto. Qed.
Lemma good_addr c : good (rd_addr c). Proof. unfold rd_addr. goods; auto with good. Qed.
#[global] Hint Resolve good_opt good_addr : good.
Lemma opt_some A B (f : A -> reader B) x h y o d : rd_opt f x h = Some (y, o, d) -> is_some x = is_some y.
Proof. destruct x; cbn [rd_opt]; intros E; apart; reflexivity. Qed.
Lemma opt_cons A B (f : A -> reader B) x y h o d : f x h = Some (y, o, d) -> rd_opt f (Some x) h = Some (Some y, o, d).
Proof. intros E. cbn [rd_opt]. unfold rthen, rret. rewrite E. now rewrite !app_nil_r. Qed.
Lemma both_ok A B A' B' (f : A -> reader A') (g : B -> reader B') a b h x y o1 d1 o2 d2 : f a h = Some (x, o1, d1) -> g b h = Some (y, o2, d2) ->
  rd_both f g (a, b) h = Some ((x, y), (o1 ++ o2)%list, (d1 ++ d2)%list).
Proof. intros E1 E2. unfold rd_both, rthen, rret. cbn [fst snd]. rewrite E1, E2. now rewrite !app_nil_r. Qed.
Lemma load_ok p h (A : Type) (k : cell -> hm A) c : load p h = Ok (h, c) -> hthen (load p) k h = k c h.
Proof. intros E. unfold hthen. now rewrite E. Qed.
Lemma sim_ips n ad l : forall h bs o d a4 c4 o4 d4 a6 c6 o6 d6, rd_list (rd_ptr rd_ipc4) l h = Some (bs, o, d) -> incl d ad ->
  rd_opt rd_addr a4 h = Some (c4, o4, d4) -> above n o4 -> incl d4 ad -> rd_opt rd_addr a6 h = Some (c6, o6, d6) -> above n o6 -> incl d6 ad ->
  sim n h (hto02x_ips l a4 a6) (rd_both (rd_opt rd_addr) (rd_opt rd_addr)) (to02x_ips bs c4 c6) ad.
Proof.
  induction l as [|p l IH]; intros h bs o d a4 c4 o4 d4 a6 c6 o6 d6 E I E4 AB4 I4 E6 AB6 I6.
  - cbn [rd_list] in E. apart. cbn [hto02x_ips to02x_ips]. eapply sim_ret; [eapply both_ok; eassumption|close|close].
  - cbn [rd_list] in E. apply then_inv in E as (b & ob & db & ot & dt & Eb & Et & -> & ->). apply then_inv in Et as (bt & ot' & dt' & oz & dz & Et & Ez & -> & ->).
    apply ret_inv in Ez as (-> & -> & ->). rewrite app_nil_r in I. incls. destruct p as [p|]; cbn [rd_ptr] in Eb; [|apart; reflexivity].
    unfold rd_ipc4 in Eb. apart. incls. cbn [hto02x_ips to02x_ips]. eapply sim_pure; [eassumption|]. cbv iota. cbn [i4_version i4_address i4_gateway].
    rewrite (opt_some _ _ _ _ _ _ _ _ E4), (opt_some _ _ _ _ _ _ _ _ E6).
    assert (CV : exists dc, rd_opt rd_addr (Some {| h2_ip := h4_address c; h2_gateway := h4_gateway c; h2_routes := None |}) h =
                   Some (Some {| i2_ip := x1; i2_gateway := x2; i2_routes := [] |}, [], dc) /\ incl dc ad).
    { exists (d1 ++ d0)%list. split; [|close]. apply opt_cons. unfold rd_addr, rthen, rret. cbn [h2_ip h2_gateway]. rewrite E1, E2. cbn [app]. now rewrite !app_nil_r. }
    destruct CV as (dc & CV & IC).
    destruct (String.eqb (h4_version c) "4" && negb (is_some c4)) eqn:T4; [|destruct (String.eqb (h4_version c) "6" && negb (is_some c6)) eqn:T6].
    + destruct a6 as [h6|]; destruct c6 as [v6|]; try (apply opt_some in E6; discriminate E6).
      * eapply sim_ret; [eapply both_ok; eassumption|close|close].
      * eapply IH; [eassumption|eassumption|exact CV|constructor|exact IC|exact E6|eassumption|eassumption].
    + destruct a4 as [h4|]; destruct c4 as [v4|]; try (apply opt_some in E4; discriminate E4).
      * eapply sim_ret; [eapply both_ok; eassumption|close|close].
      * eapply IH; [eassumption|eassumption|exact E4|eassumption|eassumption|exact CV|constructor|exact IC].
    + destruct a4 as [h4|]; destruct c4 as [v4|]; try (apply opt_some in E4; discriminate E4); [destruct a6 as [h6|]; destruct c6 as [v6|]; try (apply opt_some in E6; discriminate E6)|].
      * eapply sim_ret; [eapply both_ok; eassumption|close|close].
      * eapply IH; [eassumption|eassumption|exact E4|eassumption|eassumption|exact E6|eassumption|eassumption].
      * eapply IH; [eassumption|eassumption|exact E4|eassumption|eassumption|exact E6|eassumption|eassumption].
Qed.
Lemma bytes_load s h b o d : rd_bytes s h = Some (b, o, d) -> bytes_of s h = Ok (h, b).
Proof.
  destruct s as [l|]; cbn [rd_bytes bytes_of]; intros E; [|apply ret_inv in E as (-> & -> & ->); reflexivity].
  unfold look_bytes in E. unfold hthen, load. destruct (nth_error h l) as [[]|]; try discriminate. injection E as <- <- <-. reflexivity.
Qed.
Lemma net_load m h b o d : rd_net m h = Some (b, o, d) -> bytes_of (hn_ip m) h = Ok (h, n_ip b).
Proof. unfold rd_net. intros E. apply then_inv in E as (i & o1 & d1 & o2 & d2 & E1 & E2 & -> & ->). apart. cbn [n_ip]. eapply bytes_load; eassumption. Qed.
(** The routes of each family. *)
Fixpoint shorts (l : list (option route)) (has4 has6 : bool) : res (list route * list route) :=
  match l with
  | [] => Ok ([], [])
  | None :: _ => Panic
  | Some r :: l' =>
      rbind (shorts l' has4 has6) (fun '(r4, r6) =>
        Ok (if is4 (n_ip (r_dst r)) then (if has4 then short_route r :: r4 else r4, r6) else (r4, if has6 then short_route r :: r6 else r6)))
  end.
Definition with_routes (c : ipc020) (rs : list route) : ipc020 := {| i2_ip := i2_ip c; i2_gateway := i2_gateway c; i2_routes := (i2_routes c ++ rs)%list |}.
Definition opt_routes (c : option ipc020) (rs : list route) : option ipc020 := option_map (fun c => with_routes c rs) c.
Lemma with_nil c : with_routes c [] = c. Proof. destruct c. unfold with_routes. cbn. now rewrite app_nil_r. Qed.
Lemma opt_nil c : opt_routes c [] = c. Proof. destruct c; cbn [opt_routes option_map]; [now rewrite with_nil|reflexivity]. Qed.
Lemma opt_cons_routes c r rs : opt_routes (Some (add_route c r)) rs = opt_routes (Some c) (r :: rs).
Proof. cbn [opt_routes option_map]. unfold with_routes, add_route. cbn [i2_ip i2_gateway i2_routes]. now rewrite <- app_assoc. Qed.
Lemma to02x_routes_eq l : forall c4 c6, to02x_routes l c4 c6 =
  rbind (shorts l (is_some c4) (is_some c6)) (fun '(r4, r6) => Ok (opt_routes c4 r4, opt_routes c6 r6)).
Proof.
  induction l as [|[r|] l IH]; intros c4 c6; cbn [to02x_routes shorts rbind]; [now rewrite !opt_nil| |reflexivity].
  destruct (is4 (n_ip (r_dst r))).
  - destruct c4 as [c|]; rewrite IH; cbn [is_some]; destruct (shorts l _ _) as [[r4 r6]| |]; cbn [rbind]; try reflexivity. now rewrite opt_cons_routes.
  - destruct c6 as [c|]; rewrite IH; cbn [is_some]; destruct (shorts l _ _) as [[r4 r6]| |]; cbn [rbind]; try reflexivity. now rewrite opt_cons_routes.
Qed.
Lemma sim_routes n ad has4 has6 l : forall h bs o d, rd_list (rd_ptr rd_route_at) l h = Some (bs, o, d) -> incl d ad ->
  sim n h (hto02x_routes l has4 has6) (rd_both (rd_list rd_route) (rd_list rd_route)) (shorts bs has4 has6) ad.
Proof.
  induction l as [|p l IH]; intros h bs o d E I.
  - cbn [rd_list] in E. apart. cbn [hto02x_routes shorts]. eapply sim_ret; [eapply both_ok; reflexivity|close|close].
  - cbn [rd_list] in E. apply then_inv in E as (b & ob & db & ot & dt & Eb & Et & -> & ->). apply then_inv in Et as (bt & ot' & dt' & oz & dz & Et & Ez & -> & ->).
    apply ret_inv in Ez as (-> & -> & ->). rewrite app_nil_r in I. incls. destruct p as [p|]; cbn [rd_ptr] in Eb; [|apart; reflexivity].
    unfold rd_route_at in Eb. apart. match goal with H : rd_route _ _ = Some _ |- _ => unfold rd_route in H end. apart. incls. cbn [hto02x_routes shorts]. eapply sim_pure; [eassumption|]. cbv iota. cbn [r_dst].
    eapply sim_pure; [eapply net_load; eassumption|]. eapply sim_then; [eapply IH; eassumption|].
    intros [b4 b6] h1 [l4 l6] oo dd _ X R AB IN. lift X. apply both_inv in R as (? & ? & ? & ? & RA & RB & -> & ->). cbn [fst snd] in *. incls. aboves.
    assert (SH : exists ds, rd_route (hshort_route r) h1 = Some (short_route {| r_dst := x0; r_gw := x1; r_mtu := hr_mtu r; r_advmss := hr_advmss r; r_priority := hr_priority r; r_table := x2; r_scope := x3 |}, [], ds) /\ incl ds ad).
    { eexists. split; [|]; cycle 1. 2: { unfold rd_route, rthen, rret, hshort_route. cbn [hr_dst hr_gw hr_table hr_scope hr_mtu hr_advmss hr_priority rd_int].
        repeat match goal with H : rd_net _ h1 = _ |- _ => rewrite H end. repeat match goal with H : rd_bytes _ h1 = _ |- _ => rewrite H end. cbn [rret app]. reflexivity. } close. }
    destruct SH as (ds & SH & IS).
    destruct (is4 (n_ip x0)).
    + destruct has4; eapply sim_ret; try (eapply both_ok; [first [eapply rd_list_cons; [exact SH|exact RA]|exact RA]|exact RB]); close.
    + destruct has6; eapply sim_ret; try (eapply both_ok; [exact RA|first [eapply rd_list_cons; [exact SH|exact RB]|exact RB]]); close.
Qed.
Lemma sim_alloc_ipc2 n ad h c cv o1 d1 rs rv o2 d2 : n <= Datatypes.length h -> rd_opt rd_addr c h = Some (cv, o1, d1) -> above n o1 -> incl d1 ad ->
  rd_list rd_route rs h = Some (rv, o2, d2) -> above n o2 -> incl d2 ad -> sim n h (alloc_ipc2 c rs) (rd_ptr rd_ipc2) (Ok (opt_routes cv rv)) ad.
Proof.
  intros N E1 AB1 I1 E2 AB2 I2. destruct c as [c|]; cbn [rd_opt alloc_ipc2] in *.
  - apply then_inv in E1 as (x & oa & da & ob & db & E1 & Ez & -> & ->). apply ret_inv in Ez as (-> & -> & ->). unfold rd_addr in E1. apart. incls. aboves.
    cbn [opt_routes option_map]. unfold with_routes. cbn [i2_ip i2_gateway i2_routes app].
    eapply (sim_ok _ _ _ _ _ _ _ _ rd_routes); [eapply sim_routes_slice; eassumption|]. intros h1 s os ds X R AB IN. lift X.
    eapply (sim_ok _ _ _ _ _ _ _ _ rd_ipc2); [alloced n|]. intros h2 l ol dl X RQ ABQ INQ. lift X.
    eapply sim_ret; [cbn [rd_ptr]; reads|close|close].
  - apart. eapply sim_ret; [reflexivity|constructor|nilincl].
Qed.
Lemma conv040_to02x_sim n ad h p r o d to : n <= Datatypes.length h -> rd_result p h = Some (r, o, d) -> incl d ad ->
  sim n h (hconv040_to02x p to) rd_result (conv040_to02x r to) ad.
Proof.
  intros N E I. unfold hconv040_to02x, conv040_to02x. unfold rd_result in E. apart; (eapply sim_pure; [eassumption|]; cbv iota); [reflexivity| |reflexivity..].
  unfold rd_res4 in *. apart. incls. cbn [v4_ips v4_routes v4_dns]. next sim_dns.
  match goal with H : rd_ptrs rd_ipc4 _ _ = Some _ |- _ => apply ptrs_inv in H as (ips & oi & P1 & P2 & _) end.
  eapply sim_pure; [exact P1|]. eapply sim_then; [eapply sim_ips; [eassumption|eassumption|reflexivity|constructor|nilincl|reflexivity|constructor|nilincl]|].
  intros [v4 v6] h2 [c4 c6] oc dc _ X RC ABC INC. clear P1 P2. lift X. apply both_inv in RC as (? & ? & ? & ? & RC4 & RC6 & -> & ->). cbn [fst snd] in *. incls. aboves.
  match goal with H : rd_ptrs rd_route_at _ _ = Some _ |- _ => apply ptrs_inv in H as (rs & oq & P1 & P2 & _) end.
  eapply sim_pure; [exact P1|]. rewrite to02x_routes_eq. pose proof (opt_some _ _ _ _ _ _ _ _ RC4) as S4. pose proof (opt_some _ _ _ _ _ _ _ _ RC6) as S6. rewrite S4, S6.
  match goal with |- sim _ _ _ _ (rbind (rbind ?a ?b) ?c) _ => replace (rbind (rbind a b) c) with (rbind a (fun x => rbind (b x) c)) by (destruct a; reflexivity) end.
  eapply sim_then; [eapply sim_routes; eassumption|].
  intros [w4 w6] h3 [r4 r6] oe de _ X RE ABE INE. clear P1 P2. lift X. apply both_inv in RE as (? & ? & ? & ? & RE4 & RE6 & -> & ->). cbn [fst snd] in *. incls. aboves.
  cbn [rbind]. 
  match goal with |- sim _ _ (match _ with _ => _ end) _ _ _ => idtac end.
  assert (K : forall A (a b : A), match c4, c6 with None, None => a | _, _ => b end = match opt_routes v4 w4, opt_routes v6 w6 with None, None => a | _, _ => b end).
  { intros A a0 b0. destruct c4, v4; try discriminate S4; destruct c6, v6; try discriminate S6; reflexivity. }
  rewrite (K (hm loc)). clear K.
  assert (OK : sim n h3 (run a0 := alloc_ipc2 c4 r4 in run b0 := alloc_ipc2 c6 r6 in
     alloc (CRes2 {| hv2_version := to; hv2_ip4 := a0; hv2_ip6 := b0; hv2_dns := a |})) rd_result
     (Ok (R020 {| v2_version := to; v2_ip4 := opt_routes v4 w4; v2_ip6 := opt_routes v6 w6; v2_dns := dns_copy x3 |})) ad).
  { eapply (sim_ok _ _ _ _ _ _ _ _ (rd_ptr rd_ipc2)); [eapply sim_alloc_ipc2; eassumption|]. intros h4 p4 op4 dp4 X RP4 AB4' IN4'. lift X.
    eapply (sim_ok _ _ _ _ _ _ _ _ (rd_ptr rd_ipc2)); [eapply sim_alloc_ipc2; eassumption|]. intros h5 p6 op6 dp6 X RP6 AB6' IN6'. lift X.
    alloced n. }
  destruct (opt_routes v4 w4), (opt_routes v6 w6); first [exact OK|reflexivity].
Qed.

(** ** The converters of 1.0.0 and 1.1.0 *)
Lemma sim_if_from n ad h p b o d : n <= Datatypes.length h -> rd_if4 p h = Some (b, o, d) -> incl d ad -> sim n h (hconv_if_from040 p) rd_if1 (Ok (conv_if_from040 b)) ad.
Proof. intros N E I. unfold rd_if4 in E. apart. unfold hconv_if_from040. eapply sim_pure; [eassumption|]. cbv iota. alloced n. Qed.
Lemma sim_if_to n ad h p b o d : n <= Datatypes.length h -> rd_if1 p h = Some (b, o, d) -> incl d ad -> sim n h (hconv_if_to040 p) rd_if4 (Ok (conv_if_to040 b)) ad.
Proof. intros N E I. unfold rd_if1 in E. apart. unfold hconv_if_to040. eapply sim_pure; [eassumption|]. cbv iota. alloced n. Qed.
Lemma sim_ipc_from n ad h p b o d : n <= Datatypes.length h -> rd_ipc4 p h = Some (b, o, d) -> incl d ad -> sim n h (hconv_ipc_from040 p) rd_ipc1 (Ok (conv_ipc_from040 b)) ad.
Proof. intros N E I. unfold rd_ipc4 in E. apart. incls. unfold hconv_ipc_from040. eapply sim_pure; [eassumption|]. cbv iota. next sim_int. alloced n. Qed.
Lemma sim_ipc_to n ad h p b o d : n <= Datatypes.length h -> rd_ipc1 p h = Some (b, o, d) -> incl d ad -> sim n h (hconv_ipc_to040 p) rd_ipc4 (Ok (conv_ipc_to040 b)) ad.
Proof.
  intros N E I. unfold rd_ipc1 in E. apart. incls. unfold hconv_ipc_to040. eapply sim_pure; [eassumption|]. cbv iota.
  eapply sim_pure; [eapply net_load; eassumption|]. next sim_int. alloced n.
Qed.
Lemma conv100_from04x_sim n ad h p r o d to : n <= Datatypes.length h -> rd_result p h = Some (r, o, d) -> incl d ad ->
  sim n h (hconv100_from04x p to) rd_result (conv100_from04x r to) ad.
Proof.
  intros N E I. unfold hconv100_from04x, conv100_from04x. unfold rd_result in E. apart; (eapply sim_pure; [eassumption|]; cbv iota); [reflexivity| |reflexivity..].
  unfold rd_res4 in *. apart. incls. cbn [v4_interfaces v4_ips v4_routes v4_dns]. next sim_dns. rewrite <- !mapr_deref.
  eapply sim_then; [eapply sim_convert_slice; [| |intros; eapply sim_deref; [| |intros; eapply sim_if_from; eassumption|..]|..]; intros; auto with good; eassumption|].
  intros ib h2 i oi di _ X RI ABI INI. lift X.
  eapply sim_then; [eapply sim_convert_slice; [| |intros; eapply sim_deref; [| |intros; eapply sim_ipc_from; eassumption|..]|..]; intros; auto with good; eassumption|].
  intros ab h3 a3 o3' d3' _ X RA ABA INA. lift X. next sim_copy_routes. alloced n.
Qed.
Lemma conv100_to04x_sim n ad h p r o d to : n <= Datatypes.length h -> rd_result p h = Some (r, o, d) -> incl d ad ->
  sim n h (hconv100_to04x p to) rd_result (conv100_to04x r to) ad.
Proof.
  intros N E I. unfold hconv100_to04x, conv100_to04x. unfold rd_result in E. apart; (eapply sim_pure; [eassumption|]; cbv iota); [reflexivity..|].
  unfold rd_res1 in *. apart. incls. cbn [v1_interfaces v1_ips v1_routes v1_dns]. next sim_dns. rewrite <- !mapr_deref.
  eapply sim_then; [eapply sim_convert_slice; [| |intros; eapply sim_deref; [| |intros; eapply sim_if_to; eassumption|..]|..]; intros; auto with good; eassumption|].
  intros ib h2 i oi di _ X RI ABI INI. lift X.
  eapply sim_then; [eapply sim_convert_slice; [| |intros; eapply sim_deref; [| |intros; eapply sim_ipc_to; eassumption|..]|..]; intros; auto with good; eassumption|].
  intros ab h3 a3 o3' d3' _ X RA ABA INA. lift X. next sim_copy_routes. alloced n.
Qed.
(** Nothing is claimed about what [convertFrom100] shares. *)
Lemma above_0 o : above 0 o. Proof. apply Forall_forall. intros. apply Nat.le_0_l. Qed.
Lemma conv100_from100_sim ad h p r o d to : rd_result p h = Some (r, o, d) -> incl d ad ->
  sim 0 h (hconv100_from100 p to) rd_result (conv100_from100 r to) ad.
Proof.
  intros E I. pose proof (Nat.le_0_l (Datatypes.length h)) as N. unfold hconv100_from100, conv100_from100. unfold rd_result in E. apart; (eapply sim_pure; [eassumption|]; cbv iota); [reflexivity..|].
  unfold rd_res1 in *. apart. incls. cbn [v1_interfaces v1_ips v1_routes v1_dns].
  repeat match goal with H : ?m h = Some (_, ?o, _) |- _ => lazymatch goal with _ : above 0 o |- _ => fail | _ => pose proof (above_0 o) end end. alloced 0.
Qed.

(** ** Convert *)
Definition one_x (v : string) : bool := mem_str v ["1.0.0"; "1.1.0"].
Definition new_format (a b : string) : bool := negb (String.eqb a b) && negb (one_x a && one_x b).
Lemma find_in l a b c : find_converter l a b = Some c -> In c l /\ c_from c = a /\ In b (c_tos c).
Proof.
  induction l as [|x l IH]; cbn [find_converter]; [discriminate|]. destruct (String.eqb (c_from x) a && mem_str b (c_tos x)) eqn:E.
  - intros H. injection H as <-. apply andb_true_iff in E as [E1 E2]. apply String.eqb_eq in E1. split; [now left|]. split; [exact E1|]. now apply mem_str_In.
  - intros H. destruct (IH H) as (I & R). split; [now right|exact R].
Qed.
Definition fits (c : converter) : bool :=
  match c_fn c with
  | C100From100 => one_x (c_from c) && forallb one_x (c_tos c)
  | C100From02x => forallb (fun v => negb (String.eqb v "0.4.0") && negb (one_x v)) [c_from c]
  | C100To02x => forallb (fun v => negb (String.eqb "0.4.0" v) && negb (String.eqb v "")) (c_tos c)
  | _ => true
  end.
Lemma table_fits : forallb fits converters = true.
Proof. vm_compute. reflexivity. Qed.
Lemma found_fits a b c : find_converter converters a b = Some c -> fits c = true /\ c_from c = a /\ In b (c_tos c).
Proof. intros H. apply find_in in H as (I & A & B). split; [|auto]. pose proof table_fits as T. rewrite forallb_forall in T. auto. Qed.
Lemma version_load p h r o d : rd_result p h = Some (r, o, d) -> hversion p h = Ok (h, result_version r).
Proof. unfold rd_result, hversion. intros E. apart; rewrite (load_ok _ _ _ _ _ E0); unfold rd_res2, rd_res4, rd_res1 in *; apart; reflexivity. Qed.
Lemma to04x_version r v : match conv100_to04x r v with Ok r' => result_version r' = v | _ => True end.
Proof. destruct r as [r|r|r]; try exact I. cbn [conv100_to04x]. destruct (map_deref conv_if_to040 _); [|exact I..]. cbn [rbind]. destruct (map_deref conv_ipc_to040 _); [|exact I..]. reflexivity. Qed.
Lemma convert_sim n ad f : forall h p r o d to, n = 0 \/ new_format (result_version r) (if String.eqb to "" then "0.1.0" else to) = true ->
  n <= Datatypes.length h -> rd_result p h = Some (r, o, d) -> incl d ad -> sim n h (hconvert_fuel f p to) rd_result (convert_fuel f r to) ad.
Proof.
  induction f as [|f IH]; intros h p r o d to SEP N E I; [reflexivity|]. cbn [hconvert_fuel convert_fuel].
  eapply sim_pure; [eapply version_load; exact E|]. set (to' := if String.eqb to "" then "0.1.0" else to) in *.
  destruct (String.eqb (result_version r) to') eqn:V.
  - destruct SEP as [-> | S]; [eapply sim_ret; [exact E|apply above_0|exact I]|]. unfold new_format in S. rewrite V in S. discriminate S.
  - destruct (find_converter converters (result_version r) to') as [c|] eqn:F; [|reflexivity]. apply found_fits in F as (FT & CF & TO). unfold fits in FT. destruct (c_fn c).
    + eapply conv010_sim; eassumption.
    + eapply conv010_sim; eassumption.
    + eapply conv040_from02x_sim; eassumption.
    + eapply conv040_internal_sim; eassumption.
    + eapply conv040_to02x_sim; eassumption.
    + cbn [forallb] in FT. rewrite andb_true_r, CF in FT. eapply sim_then.
      * eapply (IH h p r o d "0.4.0"); [|exact N|exact E|exact I]. right. cbn [String.eqb]. unfold new_format.
        change (if String.eqb "0.4.0" "" then "0.1.0" else "0.4.0") with "0.4.0".
        apply andb_true_iff in FT as [-> F2]. apply negb_true_iff in F2. rewrite F2. reflexivity.
      * intros r4 h1 q oq dq _ X R AB IN. apply ext_length in X. eapply conv100_from04x_sim; [lia|exact R|exact IN].
    + eapply conv100_from04x_sim; eassumption.
    + rewrite CF in FT. apply andb_true_iff in FT as [F1 F2]. rewrite forallb_forall in F2. destruct SEP as [-> | S]; [eapply conv100_from100_sim; eassumption|].
      exfalso. unfold new_format in S. rewrite F1, (F2 _ TO) in S. rewrite andb_false_r in S. discriminate S.
    + eapply conv100_to04x_sim; eassumption.
    + eapply sim_then; [eapply conv100_to04x_sim; eassumption|]. intros r4 h1 q oq dq VE X R AB IN. apply ext_length in X.
      eapply IH; [|lia|exact R|exact IN]. right. pose proof (to04x_version r "0.4.0") as TV. rewrite VE in TV. rewrite TV. rewrite forallb_forall in FT.
      specialize (FT _ TO). cbn beta in FT. apply andb_true_iff in FT as [F1 F2]. apply negb_true_iff in F2. rewrite F2. unfold new_format. rewrite F1. reflexivity.
Qed.

(** ** GetAsVersion *)
Definition is_res (c : cell) : bool := match c with CRes2 _ | CRes4 _ | CRes1 _ => true | _ => false end.
(** A reader that goes through no struct of a result. *)
Definition sub {A} (m : reader A) : Prop := forall h a o d, m h = Some (a, o, d) -> forall l, In l o -> exists c, nth_error h l = Some c /\ is_res c = false.
Lemma sub_ret A (a : A) : sub (rret a).
Proof. intros h x o d E. apply ret_inv in E as (-> & -> & ->). intros l []. Qed.
Lemma sub_fail A : sub (@rfail A).
Proof. intros h x o d E. discriminate. Qed.
Lemma sub_then A B (m : reader A) (f : A -> reader B) : sub m -> (forall a, sub (f a)) -> sub (rthen m f).
Proof. intros M F h b o d E l I. apply then_inv in E as (a & o1 & d1 & o2 & d2 & E1 & E2 & -> & ->). apply in_app_or in I as [I|I]; [exact (M _ _ _ _ E1 l I)|exact (F _ _ _ _ _ E2 l I)]. Qed.
Lemma sub_look B l (f : cell -> reader B) : (forall c, is_res c = true -> f c = rfail) -> (forall c, sub (f c)) -> sub (rthen (look l) f).
Proof.
  intros K F h b o d E x I. apply then_inv in E as (c & o1 & d1 & o2 & d2 & E1 & E2 & -> & ->). apply in_app_or in I as [I|I]; [|exact (F _ _ _ _ _ E2 x I)].
  unfold look in E1. destruct (nth_error h l) as [c'|] eqn:N; [|discriminate]. destruct (is_bytes c'); [discriminate|]. injection E1 as <- <- <-. destruct I as [<- | []].
  exists c'. split; [exact N|]. destruct (is_res c') eqn:R; [|reflexivity]. rewrite (K _ R) in E2. discriminate.
Qed.
Lemma sub_bytes s : sub (rd_bytes s). Proof. intros h b o d E. apply bytes_own in E. subst. intros l []. Qed.
Lemma sub_net s : sub (rd_net s). Proof. intros h b o d E. apply net_own in E. subst. intros l []. Qed.
Lemma sub_list A B (f : A -> reader B) l : (forall a, sub (f a)) -> sub (rd_list f l).
Proof. intros F. induction l as [|a l IH]; cbn [rd_list]; [apply sub_ret|]. apply sub_then; [apply F|]. intros b. apply sub_then; [exact IH|]. intros. apply sub_ret. Qed.
Ltac subs := repeat (match goal with
  | |- sub (rret _) => apply sub_ret
  | |- sub rfail => apply sub_fail
  | |- sub (rthen (look _) _) => apply sub_look; [intros [] K; first [discriminate K|reflexivity]|intros ?]
  | |- sub (rthen _ _) => apply sub_then; [|intros ?]
  | |- sub (match ?x with _ => _ end) => destruct x
  | |- sub (rd_list _ _) => apply sub_list; intros ?
  end); auto.
#[global] Hint Resolve sub_bytes sub_net sub_list : sub.
Lemma sub_strs s : sub (rd_strs s). Proof. unfold rd_strs. subs. Qed.
Lemma sub_int s : sub (rd_int s). Proof. unfold rd_int. subs. Qed.
#[global] Hint Resolve sub_strs sub_int : sub.
Lemma sub_dns s : sub (rd_dns s). Proof. unfold rd_dns. subs; auto with sub. Qed.
Lemma sub_route s : sub (rd_route s). Proof. unfold rd_route. subs; auto with sub. Qed.
#[global] Hint Resolve sub_dns sub_route : sub.
Lemma sub_ptr A (f : loc -> reader A) p : (forall l, sub (f l)) -> sub (rd_ptr f p). Proof. intros F. unfold rd_ptr. subs. Qed.
Lemma sub_ptrs A (f : loc -> reader A) p : (forall l, sub (f l)) -> sub (rd_ptrs f p). Proof. intros F. unfold rd_ptrs. subs. now apply sub_ptr. Qed.
Lemma sub_route_at l : sub (rd_route_at l). Proof. unfold rd_route_at. subs; auto with sub. Qed.
Lemma sub_routes l : sub (rd_routes l). Proof. unfold rd_routes. subs; auto with sub. Qed.
#[global] Hint Resolve sub_ptr sub_ptrs sub_route_at sub_routes : sub.
Lemma sub_if4 l : sub (rd_if4 l). Proof. unfold rd_if4. subs. Qed.
Lemma sub_if1 l : sub (rd_if1 l). Proof. unfold rd_if1. subs. Qed.
Lemma sub_ipc2 l : sub (rd_ipc2 l). Proof. unfold rd_ipc2. subs; auto with sub. Qed.
Lemma sub_ipc4 l : sub (rd_ipc4 l). Proof. unfold rd_ipc4. subs; auto with sub. Qed.
Lemma sub_ipc1 l : sub (rd_ipc1 l). Proof. unfold rd_ipc1. subs; auto with sub. Qed.
#[global] Hint Resolve sub_if4 sub_if1 sub_ipc2 sub_ipc4 sub_ipc1 : sub.
Lemma sub_res2 r : sub (rd_res2 r). Proof. unfold rd_res2. subs; auto with sub. Qed.
Lemma sub_res4 r : sub (rd_res4 r). Proof. unfold rd_res4. subs; auto with sub. Qed.
Lemma sub_res1 r : sub (rd_res1 r). Proof. unfold rd_res1. subs; auto with sub. Qed.

Lemma nth_upd A n (x : A) l m : nth_error (upd n x l) m = if Nat.eqb m n then option_map (fun _ => x) (nth_error l m) else nth_error l m.
Proof. revert n m. induction l as [|y l IH]; intros [|n] [|m]; cbn; try reflexivity; [destruct (Nat.eqb m n); reflexivity|apply IH]. Qed.
Lemma upd_length A n (x : A) l : Datatypes.length (upd n x l) = Datatypes.length l.
Proof. revert n. induction l as [|y l IH]; intros [|n]; cbn; try reflexivity. now rewrite IH. Qed.
(** Writing the struct of a result leaves what it points to. *)
Lemma sub_upd A (m : reader A) p c c0 h x : good m -> sub m -> nth_error h p = Some c0 -> is_res c0 = true -> m h = Some x -> m (upd p c h) = Some x.
Proof.
  intros G S N C E. destruct x as [[a o] d]. destruct (G _ _ _ _ E) as (_ & D & K). apply K. intros l I. rewrite nth_upd. destruct (Nat.eqb l p) eqn:Q; [|reflexivity].
  apply Nat.eqb_eq in Q. subst l. exfalso. destruct I as [I|I].
  - destruct (S _ _ _ _ E p I) as (c1 & N1 & R1). congruence.
  - destruct (D p I) as (b & B). rewrite N in B. injection B as ->. discriminate C.
Qed.
Definition versioned (r : result) : result := if String.eqb (result_version r) "" then set_version (implemented_version r) r else r.
Lemma versioned_eq r v : get_as_version r v = convert (versioned r) v. Proof. reflexivity. Qed.
Lemma look_at p h c : nth_error h p = Some c -> is_bytes c = false -> look p h = Some (c, [p], []).
Proof. intros N B. unfold look. now rewrite N, B. Qed.
Lemma load_at p h c : load p h = Ok (h, c) -> nth_error h p = Some c.
Proof. unfold load. destruct (nth_error h p); [|discriminate]. intros E. now injection E as ->. Qed.
(** The first step of GetAsVersion: an empty version becomes the package's. *)
Definition set_default (p : loc) (v : string) : hm unit :=
  if String.eqb v "" then
    run c := load p in
    store p (set_hversion (match c with CRes2 _ => "0.2.0" | CRes4 _ => "0.4.0" | _ => "1.1.0" end) c)
  else hret tt.
Lemma set_default_ok p h r o d : rd_result p h = Some (r, o, d) ->
  exists h0, set_default p (result_version r) h = Ok (h0, tt) /\ Datatypes.length h0 = Datatypes.length h /\ rd_result p h0 = Some (versioned r, o, d) /\
    (String.eqb (result_version r) "" = false -> h0 = h).
Proof.
  intros E. unfold set_default, versioned. destruct (String.eqb (result_version r) "") eqn:V; [|exists h; auto]. unfold rd_result in E. apart.
  - rewrite (load_ok _ _ _ _ _ E0). apply load_at in E0. eexists. split; [reflexivity|]. split; [apply upd_length|]. split; [|discriminate].
    cbn [implemented_version set_version set_hversion]. unfold rd_result. eapply then_ok; [apply look_at; [rewrite nth_upd, Nat.eqb_refl, E0; reflexivity|reflexivity]|].
    cbv iota. unfold rd_res2 in *. apart.
    repeat match goal with H : ?m h = Some ?y |- _ => lazymatch m with nth_error => fail | _ =>
      apply (sub_upd _ m p (CRes2 {| hv2_version := "0.2.0"; hv2_ip4 := hv2_ip4 r0; hv2_ip6 := hv2_ip6 r0; hv2_dns := hv2_dns r0 |}) _ h y ltac:(auto with good) ltac:(auto with sub) E0 eq_refl) in H end end.
    cbn [hv2_version hv2_ip4 hv2_ip6 hv2_dns]. unfold rthen, rret.
    repeat match goal with H : ?m (upd _ _ _) = Some _ |- _ => rewrite H; clear H end. rewrite !app_nil_r. reflexivity.
  - rewrite (load_ok _ _ _ _ _ E0). apply load_at in E0. eexists. split; [reflexivity|]. split; [apply upd_length|]. split; [|discriminate].
    cbn [implemented_version set_version set_hversion]. unfold rd_result. eapply then_ok; [apply look_at; [rewrite nth_upd, Nat.eqb_refl, E0; reflexivity|reflexivity]|].
    cbv iota. unfold rd_res4 in *. apart.
    repeat match goal with H : ?m h = Some ?y |- _ => lazymatch m with nth_error => fail | _ =>
      apply (sub_upd _ m p (CRes4 {| hv_version := "0.4.0"; hv_interfaces := hv_interfaces r0; hv_ips := hv_ips r0; hv_routes := hv_routes r0; hv_dns := hv_dns r0 |}) _ h y ltac:(auto with good) ltac:(auto with sub) E0 eq_refl) in H end end.
    cbn [hv_version hv_interfaces hv_ips hv_routes hv_dns]. unfold rthen, rret.
    repeat match goal with H : ?m (upd _ _ _) = Some _ |- _ => rewrite H; clear H end. rewrite !app_nil_r. reflexivity.
  - rewrite (load_ok _ _ _ _ _ E0). apply load_at in E0. eexists. split; [reflexivity|]. split; [apply upd_length|]. split; [|discriminate].
    cbn [implemented_version set_version set_hversion]. unfold rd_result. eapply then_ok; [apply look_at; [rewrite nth_upd, Nat.eqb_refl, E0; reflexivity|reflexivity]|].
    cbv iota. unfold rd_res1 in *. apart.
    repeat match goal with H : ?m h = Some ?y |- _ => lazymatch m with nth_error => fail | _ =>
      apply (sub_upd _ m p (CRes1 {| hv_version := "1.1.0"; hv_interfaces := hv_interfaces r0; hv_ips := hv_ips r0; hv_routes := hv_routes r0; hv_dns := hv_dns r0 |}) _ h y ltac:(auto with good) ltac:(auto with sub) E0 eq_refl) in H end end.
    cbn [hv_version hv_interfaces hv_ips hv_routes hv_dns]. unfold rthen, rret.
    repeat match goal with H : ?m (upd _ _ _) = Some _ |- _ => rewrite H; clear H end. rewrite !app_nil_r. reflexivity.
Qed.
Lemma get_split p v h r o d : rd_result p h = Some (r, o, d) ->
  exists h0, hget_as_version p v h = hconvert p v h0 /\ Datatypes.length h0 = Datatypes.length h /\ rd_result p h0 = Some (versioned r, o, d) /\
    (String.eqb (result_version r) "" = false -> h0 = h).
Proof.
  intros E. destruct (set_default_ok _ _ _ _ _ E) as (h0 & S & L & R & SAME). exists h0. split; [|auto]. unfold hget_as_version.
  unfold hthen at 1. rewrite (version_load _ _ _ _ _ E). fold (set_default p (result_version r)). unfold hthen at 1. rewrite S. reflexivity.
Qed.
Lemma result_head p h r o d : rd_result p h = Some (r, o, d) -> exists o', o = p :: o' /\ ~ In p o'.
Proof.
  intros E. unfold rd_result in E. apart; apply load_at in E0; eexists; (split; [reflexivity|]); intros I;
  rewrite app_nil_r in I;
  match goal with H : rd_res2 _ _ = Some _ |- _ => apply (sub_res2 _ _ _ _ _ H) in I | H : rd_res4 _ _ = Some _ |- _ => apply (sub_res4 _ _ _ _ _ H) in I | H : rd_res1 _ _ = Some _ |- _ => apply (sub_res1 _ _ _ _ _ H) in I end;
  destruct I as (c & N & R); rewrite E0 in N; injection N as <-; discriminate R.
Qed.
