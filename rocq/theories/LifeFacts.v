(** The socket pool and the common registers over the whole life of a chip. *)
From Verif Require Export Dotted Life TwoDeviceFacts ComFacts InitFacts RawSession RawStays.
From Verif Require Import History Datasheet.

(** ** Handles *)
Ltac no_ret X := exfalso; apply exec_Ret_inv in X as [_ [X|X]]; discriminate X.
Lemma exec_life_cons chk fuel l q ops tr x :
  exec (run_life chk fuel l (q :: ops)) tr (Done x) ->
  exists tr1 tr2 r rs, tr = tr1 ++ tr2 /\ exec (lstep chk fuel l q) tr1 (Done r) /\
    exec (run_life chk fuel (fst r) ops) tr2 (Done rs) /\ x = (fst rs, snd r :: snd rs).
Proof.
  cbn [run_life]. intros X. apply exec_bind_done in X as (tr1 & r & tr2 & -> & X1 & X2).
  apply exec_bind_done in X2 as (tr3 & rs & tr4 & -> & X3 & X4). ret_inv X4. rewrite app_nil_r. eauto 10.
Qed.

(** a device whose pool is full issued no live handle *)
Lemma full_no_handles a : pool_inv a -> any_allocated (dev a) = false -> handles a = [].
Proof.
  intros I E. destruct (handles a) as [|[h x] l] eqn:H; [reflexivity|exfalso].
  destruct (pi_socket _ I h x ltac:(rewrite H; left; reflexivity)) as (i & Hi & _ & B).
  unfold any_allocated in E. destruct (N.eqb_spec (ds_sockets (dev a)) 255) as [E'|]; [|discriminate]. rewrite E' in B.
  assert (A : N.testbit 255 i = true); [|congruence].
  destruct i as [|[[[?|?|]|[?|?|]|]|[[?|?|]|[?|?|]|]|]]; try reflexivity; lia.
Qed.
Lemma init_new {assertion h m tr d} : exec (initialize_with_host assertion h m) tr (Done (Ok d)) -> exists h', d = ds_new h'.
Proof.
  intros X. assert (Rest : forall tr', exec (try a <- uninit_reset else (fun e => Err (SpiError e)) ;;
      try b <- dev_set_mode m else (fun e => Err (SpiError e)) ;; do r <- refresh h ;;
      match snd r with Err e => Ret (Err (SpiError e)) | Ok _ => Ret (Ok (ds_new (fst r))) end) tr' (Done (Ok d)) -> exists h', d = ds_new h').
  { intros tr' Y. unfold try_ in Y. apply exec_bind_done in Y as (? & [?|?] & ? & _ & _ & Y); [|no_ret Y].
    apply exec_bind_done in Y as (? & [?|?] & ? & _ & _ & Y); [|no_ret Y].
    apply exec_bind_done in Y as (? & [h' r] & ? & _ & _ & Y). cbn [fst snd] in Y. destruct r; [|no_ret Y].
    ret_inv Y. eauto. }
  unfold initialize_with_host in X. destruct assertion; [|eauto].
  unfold try_ at 1 in X. apply exec_bind_done in X as (? & [?|?] & ? & _ & _ & X); [eauto|]. no_ret X.
Qed.

Lemma setup_new {assertion k m tr d} : exec (run_setup assertion k m) tr (Done (Ok d)) -> exists h', d = ds_new h'.
Proof. destruct k; exact init_new. Qed.

(** without [UninitializedDevice::new] on a used bus, and with either resets or devices by
    reference but not both: there is one device, and the handles are its pool's *)
Definition life_inv (b : bool) (l : life) : Prop :=
  match ph l with
  | Up d => asleep l = [] /\ pool_inv (mkApp d (lhandles l) (lfresh l))
  | UpRef k => b = true /\ k = 0%nat /\ exists d, asleep l = [d] /\ pool_inv (mkApp d (lhandles l) (lfresh l))
  | Gone => (exists d, asleep l = [d] /\ pool_inv (mkApp d (lhandles l) (lfresh l))) \/
            (asleep l = [] /\ exists d, pool_inv (mkApp d (lhandles l) (lfresh l)))
  | _ => lhandles l = [] /\ asleep l = []
  end.
Definition allowed (b : bool) (q : lop) : Prop :=
  match q with LNew => False | LReset => b = false | LWakeRef _ => b = true | _ => True end.
Lemma pool_new d n : pool_inv (mkApp (ds_new d) [] n).
Proof. exact (pool_inv_fresh (app_new d) n ltac:(cbn; lia) (pool_inv_new d)). Qed.
Lemma nth_one {A} (d x : A) k : nth_error [d] k = Some x -> k = 0%nat /\ x = d.
Proof. destruct k as [|[|k]]; cbn; intros E; try discriminate E. injection E as <-. auto. Qed.
Lemma life_pool b l : life_inv b l -> exists d, pool_inv (mkApp d (lhandles l) (lfresh l)).
Proof.
  unfold life_inv. intros H. destruct (ph l).
  - destruct H as [-> _]. exists (ds_new Dhcp). apply pool_new.
  - destruct H. eauto.
  - destruct H as (_ & _ & d & _ & H). eauto.
  - destruct H as [-> _]. exists (ds_new Dhcp). apply pool_new.
  - destruct H as [(d & _ & H)|(_ & d & H)]; eauto.
Qed.
Lemma life_asleep b l k d : life_inv b l -> nth_error (asleep l) k = Some d ->
  k = 0%nat /\ asleep l = [d] /\ pool_inv (mkApp d (lhandles l) (lfresh l)).
Proof.
  unfold life_inv. intros H E. destruct (ph l).
  - destruct H as [_ H]. rewrite H in E. destruct k; discriminate E.
  - destruct H as [H _]. rewrite H in E. destruct k; discriminate E.
  - destruct H as (_ & _ & d' & H & P). rewrite H in E. apply nth_one in E as [-> ->]. auto.
  - destruct H as [_ H]. rewrite H in E. destruct k; discriminate E.
  - destruct H as [(d' & H & P)|(H & _)]; rewrite H in E; [apply nth_one in E as [-> ->]; auto|]. destruct k; discriminate E.
Qed.
Lemma lstep_inv b chk fuel l q tr r : life_inv b l -> allowed b q -> exec (lstep chk fuel l q) tr (Done r) -> life_inv b (fst r).
Proof.
  intros J Hq X.
  assert (Same : r = (l, LNone) -> life_inv b (fst r)) by (intros ->; exact J).
  assert (Keep : forall o, r = (l, o) -> life_inv b (fst r)) by (intros o ->; exact J).
  pose proof J as I. unfold life_inv in I. unfold lstep in X.
  destruct q as [u|k m|mc|o|o| | | |k|k].
  - destruct (ph l) eqn:P; try (ret_inv X; exact J). apply exec_map in X as (? & _ & ->). exact J.
  - destruct (ph l) eqn:P; try (ret_inv X; exact J). destruct I as [Ih Ia].
    apply exec_bind_done in X as (t1 & [d|x] & t2 & _ & X1 & X); ret_inv X; unfold life_inv; cbn [fst ph lhandles lfresh asleep]; rewrite Ih.
    + destruct (setup_new X1) as (h' & ->). split; [exact Ia|apply pool_new].
    + right. split; [exact Ia|]. exists (ds_new Dhcp). apply pool_new.
  - destruct (ph l) eqn:P; try (ret_inv X; exact J). destruct I as [Ih Ia].
    apply exec_bind_done in X as (t1 & [d|x] & t2 & _ & X1 & X); ret_inv X; unfold life_inv; cbn [fst ph lhandles lfresh asleep]; [auto|].
    rewrite Ih. right. split; [exact Ia|]. exists (ds_new Dhcp). apply pool_new.
  - destruct (ph l) eqn:P; try (ret_inv X; exact J).
    + apply exec_map in X as ([[dv hs f] out] & X & ->). unfold life_inv. cbn [fst snd ph lhandles lfresh dev handles fresh asleep].
      destruct I as [Ia I]. split; [exact Ia|]. apply exec_step_post in X; [|exact I]. apply X.
    + destruct (nth_error (asleep l) k) as [d|] eqn:E; [|ret_inv X; exact J].
      apply exec_map in X as ([[dv hs f] out] & X & ->). unfold life_inv. cbn [fst snd ph lhandles lfresh dev handles fresh asleep].
      destruct (life_asleep b l k d J E) as (-> & -> & Ip). destruct I as (-> & _). split; [reflexivity|]. split; [reflexivity|].
      exists dv. split; [reflexivity|]. apply exec_step_post in X; [|exact Ip]. apply X.
  - destruct (ph l) eqn:P; try (ret_inv X; exact J). apply exec_map in X as (? & _ & ->). exact J.
  - cbn [allowed] in Hq. subst b. destruct (ph l) eqn:P; try (ret_inv X; exact J); [|now destruct I].
    destruct I as [Ia I].
    apply exec_bind_done in X as (t1 & [u|x] & t2 & _ & X1 & X); ret_inv X; unfold life_inv; cbn [fst ph lhandles lfresh asleep]; [|right; eauto].
    unfold dev_reset in X1. destruct (any_allocated d) eqn:Ea; [no_ret X1|]. split; [|exact Ia].
    exact (full_no_handles (mkApp d (lhandles l) (lfresh l)) I Ea).
  - elim Hq.
  - destruct (ph l) eqn:P; try (ret_inv X; exact J); ret_inv X; unfold life_inv; cbn [fst ph lhandles lfresh asleep]; left.
    + destruct I as [-> I]. exists d. split; [reflexivity|exact I].
    + destruct I as (_ & _ & I). exact I.
  - assert (E : exists y, nth_error (asleep l) k = y) by eauto. destruct E as ([d|] & E); rewrite E in X; [|destruct (ph l); ret_inv X; exact J].
    assert (Y : r = (mkLife (Up d) (lhandles l) (lfresh l) (drop_nth k (asleep l)), LMade)) by (destruct (ph l); ret_inv X; reflexivity).
    destruct (life_asleep b l k d J E) as (-> & Ea & Ip). rewrite Y, Ea. split; [reflexivity|exact Ip].
  - assert (E : exists y, nth_error (asleep l) k = y) by eauto. destruct E as ([d|] & E); rewrite E in X; [|destruct (ph l); ret_inv X; exact J].
    assert (Y : r = (mkLife (UpRef k) (lhandles l) (lfresh l) (asleep l), LMade)) by (destruct (ph l); ret_inv X; reflexivity).
    destruct (life_asleep b l k d J E) as (-> & Ea & Ip). rewrite Y. split; [exact Hq|]. split; [reflexivity|]. eauto.
Qed.
Lemma run_life_inv b chk fuel : forall ops l tr x, life_inv b l -> Forall (allowed b) ops ->
  exec (run_life chk fuel l ops) tr (Done x) -> life_inv b (fst x).
Proof.
  induction ops as [|q ops IH]; intros l tr x I F X.
  - cbn in X. ret_inv X. exact I.
  - apply exec_life_cons in X as (t1 & t2 & r & rs & -> & X1 & X2 & ->). inversion F; subst. cbn [fst].
    eapply IH; [|eassumption|exact X2]. eapply lstep_inv; eauto.
Qed.

(** with it: the handles issued since the last initialisation, as long as no older one is used *)
Definition since (n : nat) (a : app) : app := filt (Nat.leb n) a.
Lemma since_step n fuel a o tr r : pool_inv (since n a) -> (n <= fresh a)%nat ->
  (forall h, op_handle o = Some h -> (n <= h)%nat) -> exec (step fuel a o) tr (Done r) ->
  pool_inv (since n (fst r)) /\ (n <= fresh (fst r))%nat.
Proof.
  intros I Hn Ho X. destruct (step_filter (Nat.leb n) fuel a o tr r) as (Y & T); auto.
  - intros h Hh. apply Nat.leb_le. auto.
  - now apply Nat.leb_le.
  - split.
    + apply exec_step_post in Y; [|exact I]. apply Y.
    + destruct T as [[_ ->]|[(x & _ & ->)|(h & _ & -> & _)]]; lia.
Qed.
Lemma since_calls chk n fuel : forall ops l d tr x, ph l = Up d -> pool_inv (since n (mkApp d (lhandles l) (lfresh l))) -> (n <= lfresh l)%nat ->
  Forall (fun o => forall h, op_handle o = Some h -> (n <= h)%nat) ops ->
  exec (run_life chk fuel l (map LCall ops)) tr (Done x) ->
  exists d', ph (fst x) = Up d' /\ pool_inv (since n (mkApp d' (lhandles (fst x)) (lfresh (fst x)))).
Proof.
  induction ops as [|o ops IH]; intros l d tr x P I Hn F X.
  - cbn in X. ret_inv X. eauto.
  - cbn [map] in X. apply exec_life_cons in X as (t1 & t2 & r & rs & -> & X1 & X2 & ->). inversion F as [|? ? F1 F2]; subst. cbn [fst].
    unfold lstep in X1. rewrite P in X1. apply exec_map in X1 as ([[dv hs f] out] & X1 & ->). cbn [fst snd dev handles fresh] in *.
    destruct (since_step n fuel _ o t1 _ I Hn F1 X1) as (I1 & Hn1). exact (IH (mkLife (Up dv) hs f (asleep l)) dv t2 rs eq_refl I1 Hn1 F2 X2).
Qed.

(** every handle number is below the counter *)
Lemma lstep_below chk fuel l q tr r : (forall h x, In (h, x) (lhandles l) -> (h < lfresh l)%nat) ->
  exec (lstep chk fuel l q) tr (Done r) -> (forall h x, In (h, x) (lhandles (fst r)) -> (h < lfresh (fst r))%nat).
Proof.
  intros I X. unfold lstep in X.
  assert (Call : forall d o v t, exec (step fuel (mkApp d (lhandles l) (lfresh l)) o) t (Done v) ->
    forall h x, In (h, x) (handles (fst v)) -> (h < fresh (fst v))%nat).
  { clear X. intros d o v t X.
    destruct (step_filter (fun _ => true) fuel _ o t v (fun _ _ => eq_refl) eq_refl X) as (_ & T). cbn [handles fresh] in T.
    intros h x Hin. destruct T as [[E ->]|[(y & E & ->)|(h0 & Eh & -> & T)]].
    + rewrite E in Hin. eauto.
    + rewrite E in Hin. apply in_app_iff in Hin as [Hin|[[= <- <-]|[]]]; [apply I in Hin; cbn; lia|cbn; lia].
    + destruct T as [E|(w & y & L & E)]; rewrite E in Hin; cbn [handles fresh] in *.
      * apply remove_in in Hin as [Hin _]. eauto.
      * apply update_in in Hin as [Hin|[-> ->]]; [eauto|]. apply lookup_in in L. eauto. }
  destruct q, (ph l) eqn:P; try (ret_inv X; exact I); try (destruct (nth_error (asleep l) k) eqn:E; ret_inv X; exact I).
  - apply exec_map in X as (? & _ & ->). exact I.
  - apply exec_bind_done in X as (t1 & [d|x] & t2 & _ & X1 & X); ret_inv X; exact I.
  - apply exec_bind_done in X as (t1 & [d|x] & t2 & _ & X1 & X); ret_inv X; exact I.
  - apply exec_map in X as (v & X & ->). exact (Call _ _ _ _ X).
  - destruct (nth_error (asleep l) k); [|ret_inv X; exact I]. apply exec_map in X as (v & X & ->). exact (Call _ _ _ _ X).
  - apply exec_map in X as (? & _ & ->). exact I.
  - apply exec_bind_done in X as (t1 & [u|x] & t2 & _ & X1 & X); ret_inv X; exact I.
  - destruct (nth_error (asleep l) k); [|ret_inv X; exact I].
    apply exec_bind_done in X as (t1 & [u|x] & t2 & _ & X1 & X); ret_inv X; exact I.
Qed.
Lemma run_life_below chk fuel : forall ops l tr x, (forall h y, In (h, y) (lhandles l) -> (h < lfresh l)%nat) ->
  exec (run_life chk fuel l ops) tr (Done x) -> (forall h y, In (h, y) (lhandles (fst x)) -> (h < lfresh (fst x))%nat).
Proof.
  induction ops as [|q ops IH]; intros l tr x I X.
  - cbn in X. ret_inv X. exact I.
  - apply exec_life_cons in X as (t1 & t2 & r & rs & -> & X1 & X2 & ->). cbn [fst]. eapply IH; [|exact X2]. eapply lstep_below; eauto.
Qed.
Lemma keep_none n l : (forall h x, In (h, x) l -> (h < n)%nat) -> keep (Nat.leb n) l = [].
Proof.
  induction l as [|[h x] l IH]; intros H; [reflexivity|]. cbn [keep]. destruct (Nat.leb_spec n h) as [C|_].
  - specialize (H h x (or_introl eq_refl)). lia.
  - apply IH. intros. eapply H. right. eauto.
Qed.
Lemma init_step chk fuel l k m tr r : exec (lstep chk fuel l (LInit k m)) tr (Done r) -> snd r = LInited (Ok tt) ->
  exists d, ph (fst r) = Up (ds_new d) /\ lhandles (fst r) = lhandles l /\ lfresh (fst r) = lfresh l.
Proof.
  intros X E. unfold lstep in X. destruct (ph l) eqn:P; try (ret_inv X; discriminate E).
  apply exec_bind_done in X as (t1 & [d|x] & t2 & _ & X1 & X); ret_inv X; [|discriminate E].
  destruct (setup_new X1) as (h' & ->). exists h'. cbn. auto.
Qed.

(** ** The common registers *)
(** a handle of one of the eight sockets, whether or not the pool knows *)
Definition good (l : list (nat * handle)) : Prop := forall h y, In (h, y) l -> exists i, i < 8 /\ handle_socket y = socket_new i.
Lemma good_lookup l h y : good l -> lookup h l = Some y -> exists i, i < 8 /\ handle_socket y = socket_new i.
Proof. intros G L. apply lookup_in in L. eauto. Qed.
Lemma good_remove l h : good l -> good (remove h l).
Proof. intros G i y Hin. apply remove_in in Hin as [Hin _]. eauto. Qed.
Lemma good_update l h x v : good l -> lookup h l = Some x -> handle_socket v = handle_socket x -> good (update h v l).
Proof.
  intros G L E i y Hin. apply update_in in Hin as [Hin|[-> ->]]; [eauto|]. rewrite E. eapply good_lookup; eauto.
Qed.
Lemma good_grant l n x i : good l -> i < 8 -> handle_socket x = socket_new i -> good (l ++ [(n, x)]).
Proof. intros G Hi E h y Hin. apply in_app_iff in Hin as [Hin|[[= <- <-]|[]]]; eauto. Qed.
Notation anyw := (fun _ : site => True).
Lemma good_step fuel a o : good (handles a) ->
  ptree (step_blk a o) anyw (fun r => good (handles (fst r))) (step fuel a o).
Proof.
  intros G.
  assert (S : forall h y A (Q : A -> Prop) (p : prog A), op_handle o = Some h -> lookup h (handles a) = Some y ->
    ptree (sblk (handle_socket y)) anyw Q p -> ptree (step_blk a o) anyw Q p).
  { intros h y A Q p Ho L. apply ptree_mono; auto. intros blk ad Hb. unfold step_blk. rewrite Ho. eauto. }
  assert (T : forall d i, first_free all8 (ds_sockets d) = Some i -> i < 8) by (intros d i F; now apply first_free8_some in F).
  destruct o; cbn [step]; try (destruct (lookup h (handles a)) as [[s|t|u]|] eqn:L); try exact G; cbn [fst handles].
  - unfold take_socket. change [0; 1; 2; 3; 4; 5; 6; 7] with all8. destruct (first_free all8 _) as [i|] eqn:F; cbn [ptree fst grant handles]; [|exact G].
    eapply good_grant; [exact G|eapply T; eauto|reflexivity].
  - destruct (release_socket (dev a) s); cbn [ptree fst consume handles]; [now apply good_remove|exact I].
  - unfold tcp_socket, take_socket. change [0; 1; 2; 3; 4; 5; 6; 7] with all8. destruct (first_free all8 _) as [i|] eqn:F; cbn [ptree fst grant handles]; [|exact G].
    eapply good_grant; [exact G|eapply T; eauto|reflexivity].
  - eapply S; [reflexivity|exact L|]. eapply ptree_map; [apply (pt_tcp_connect t)|]. intros; exact G.
  - eapply S; [reflexivity|exact L|]. eapply ptree_map; [apply (pt_tcp_send t)|]. intros; exact G.
  - eapply S; [reflexivity|exact L|]. eapply ptree_map; [apply (pt_tcp_receive t)|]. intros; exact G.
  - eapply S; [reflexivity|exact L|]. eapply ptree_map.
    + unfold tcp_close. eapply ptree_bind; [apply (pt_tcp_socket_close t)|]. intros [u|er] _; [|now instantiate (1 := fun _ => True)].
      destruct (release_socket _ _); exact I.
    + intros r _. cbn [fst consume handles]. now apply good_remove.
  - unfold udp_socket, take_socket. change [0; 1; 2; 3; 4; 5; 6; 7] with all8. destruct (first_free all8 _) as [i|] eqn:F; cbn [ptree fst grant handles]; [|exact G].
    eapply good_grant; [exact G|eapply T; eauto|reflexivity].
  - eapply S; [reflexivity|exact L|]. eapply ptree_map; [apply (pt_udp_connect u)|]. intros r Hr. cbn [fst put handles]. eapply good_update; eauto.
  - eapply S; [reflexivity|exact L|]. eapply ptree_map; [apply (pt_udp_bind u)|]. intros r Hr. cbn [fst put handles]. eapply good_update; eauto.
  - eapply S; [reflexivity|exact L|]. eapply ptree_map; [apply (pt_udp_send_all u)|]. intros; exact G.
  - eapply S; [reflexivity|exact L|]. eapply ptree_map; [apply (pt_udp_send_to u)|]. intros r [Hr _]. cbn [fst put handles]. eapply good_update; eauto.
  - eapply S; [reflexivity|exact L|]. eapply ptree_map; [apply (pt_udp_receive u); exact I|]. intros; exact G.
  - eapply S; [reflexivity|exact L|]. eapply ptree_map.
    + unfold udp_close. eapply ptree_bind; [apply (pt_udp_socket_close u)|]. intros [w|er] _; [|now instantiate (1 := fun _ => True)].
      destruct (release_socket _ _); exact I.
    + intros r _. cbn [fst consume handles]. now apply good_remove.
  - cbn [ptree fst consume handles]. now apply good_remove.
  - cbn [ptree fst consume handles]. now apply good_remove.
  - cbn [ptree fst consume handles]. now apply good_remove.
  - cbn [ptree fst consume handles]. now apply good_remove.
  - eapply ptree_mono with (B := cblk); [intros ? ? Hb; exact Hb|intros w Hw; exact Hw|intros ? Hx; exact Hx|].
    eapply ptree_map; [apply pt_run_devop|]. intros; exact G.
  - eapply S; [reflexivity|exact L|]. eapply ptree_map; [apply (pt_udp_set_port u)|]. intros r Hr. cbn [fst put handles]. eapply good_update; eauto.
  - eapply S; [reflexivity|exact L|]. eapply ptree_map; [apply (pt_run_sockop s)|]. intros; exact G.
Qed.

Lemma run_good e fuel a o s a' out s' : good (handles a) -> run e (step fuel a o) s = (Done (a', out), s') -> good (handles a').
Proof. intros G R. pose proof (run_ptree e _ _ _ _ (good_step fuel a o G) s) as H. rewrite R in H. exact H. Qed.
Lemma keeps_good x fuel a o : good (handles a) -> op_writes o x = false -> keeps_com x (step fuel a o).
Proof.
  intros G Ho. pose proof (good_step fuel a o G) as T.
  destruct (op_handle o) as [h|] eqn:E.
  - destruct (lookup h (handles a)) as [y|] eqn:L.
    + destruct (good_lookup _ _ _ G L) as (j & Hj & Ej). apply (keeps_ptree x j _ _ _ _) in T; [exact T|].
      intros blk ad. unfold step_blk. rewrite E. intros (x' & L' & Hb). rewrite L in L'. injection L' as <-. rewrite Ej in Hb. now apply (sblk_own j _ ad).
    + destruct o; cbn [op_handle] in E; try discriminate E; injection E as ->; cbn [step]; try rewrite L; exact Logic.I.
  - destruct o; cbn [op_handle] in E; try discriminate E; cbn [step]; try exact Logic.I.
    + destruct (take_socket (dev a)) as [? []]; exact Logic.I.
    + destruct (tcp_socket (dev a)) as [? []]; exact Logic.I.
    + destruct (udp_socket (dev a)) as [? []]; exact Logic.I.
    + apply keeps_bind; [|intros; exact Logic.I]. now apply keeps_devop.
Qed.

(** [f] with the bytes [d] put at [a] *)
Definition over (a : N) (d : list byte) (f : N -> byte) (x : N) : byte :=
  if (a <=? x) && (x <? a + len d) then nth (N.to_nat (x - a)) d x00 else f x.
Lemma over_ext a d f g x : f x = g x -> over a d f x = over a d g x.
Proof. unfold over. now intros ->. Qed.
Lemma over_in a d f x : a <= x < a + len d -> over a d f x = nth (N.to_nat (x - a)) d x00.
Proof. intros H. unfold over. destruct (N.leb_spec a x), (N.ltb_spec x (a + len d)); try lia. reflexivity. Qed.
Lemma over_out a d f x : x < a \/ a + len d <= x -> over a d f x = f x.
Proof. intros H. unfold over. destruct (N.leb_spec a x), (N.ltb_spec x (a + len d)); try lia; reflexivity. Qed.

(** a successful write to common registers *)
Lemma run_common_ok e a d s s' : 0 < a -> a + len d <= 65536 -> (PHYCFGR < a \/ a + len d <= PHYCFGR) -> (VERSIONR < a \/ a + len d <= VERSIONR) ->
  run e (write_frame COMMON a d) s = (Done (Ok tt), s') -> forall x, x <> PHYCFGR -> com (s_chip s') x = over a d (com (s_chip s)) x.
Proof.
  intros H0 H1 H2 H3 R x Hx.
  assert (W : wp e (write_frame COMMON a d) (fun r t => r = Done (Ok tt) -> com (s_chip t) x = over a d (com (s_chip s)) x) s).
  { unfold write_frame. change COMMON with 0. apply wp_com_write_any; auto. intros t r d' Hd _ (O & _) _. apply wp_ret. intros [= ->].
    rewrite (Hd eq_refl) in *. rewrite O. unfold over. now rewrite com_alone by exact Hx. }
  exact (wp_run _ _ _ _ _ _ R W eq_refl).
Qed.
Lemma run_reset_ok e s s' : run e (write_frame COMMON c_MODE [u8 128]) s = (Done (Ok tt), s') -> forall x, com (s_chip s') x = com_reset x.
Proof. intros R x. apply run_mr_ok in R as (-> & _). reflexivity. Qed.
Lemma run_mode_ok e m s s' : run e (dev_set_mode m) s = (Done (Ok tt), s') -> forall x, x <> PHYCFGR ->
  com (s_chip s') x = over MR [u8 (mode_to_u8 m)] (com (s_chip s)) x.
Proof.
  intros R x Hx. unfold dev_set_mode, mode_to_register in R. apply run_mr_ok in R as (-> & _).
  unfold wbyte. rewrite !N.eqb_refl, mode_no_reset. cbn [com set_com]. unfold upd. rewrite com_alone by exact Hx.
  destruct (N.eqb_spec x MR) as [->|Hm]; [reflexivity|]. rewrite over_out; [reflexivity|]. right. change (len [_]) with 1. unfold MR in *. lia.
Qed.

(** what the initialize functions leave in the address registers *)
Definition addresses (mc : mac) (ip gw sn : ipv4) (f : N -> byte) : N -> byte :=
  over GAR (dotted gw) (over SUBR (dotted sn) (over SHAR (six mc) (over SIPR (dotted ip) f))).
(** the common registers after a call [q] that answered [r]; [f] before it *)
Definition common_after (f : N -> byte) (q : lop) (r : lout) : N -> byte :=
  let mode m := [u8 (mode_to_u8 m)] in
  let time t := [u8 (rt_to_u16 t / 256); u8 (rt_to_u16 t)] in
  match q, r with
  | LUninit UReset, LDev _ | LCall (OpDevice QResetDevice), LOut _ | LReset, LResetR (Ok _) => com_reset
  | LUninit (USetMode m), LDev _ | LCall (OpDevice (QSetMode m)), LOut _ => over MR (mode m) f
  | LUninit (USetRetryTimeout t), LDev _ | LCall (OpDevice (QSetRetryTimeout t)), LOut _ => over RTR (time t) f
  | LUninit (USetRetryCount n), LDev _ | LCall (OpDevice (QSetRetryCount n)), LOut _ => over RCR [n] f
  | LInit (IDhcp mc) m, LInited (Ok _) => over MR (mode m) com_reset
  | LInit (IManual mc ip) m, LInited (Ok _) =>
      addresses mc ip (Ip4 (ip0 ip) (ip1 ip) (ip2 ip) x01) (Ip4 xff xff xff x00) (over MR (mode m) com_reset)
  | LInit (IAdvanced mc ip gw sn) m, LInited (Ok _) => addresses mc ip gw sn (over MR (mode m) com_reset)
  | LInitRaw mc, LInited (Ok _) => over SHAR (six mc) com_reset
  | LRawCall (RwEnable _), LRaw _ => over SIMR [x01] f
  | LRawCall RwDisable, LRaw _ => over SIMR [x00] f
  | _, _ => f
  end.
(** no call that is to change common registers reported a bus error *)
Definition clean (q : lop) (r : lout) : Prop :=
  match q, r with
  | LUninit (UReset | USetMode _ | USetRetryTimeout _ | USetRetryCount _), LDev (DUnit (Err _)) => False
  | LCall (OpDevice (QResetDevice | QSetMode _ | QSetRetryTimeout _ | QSetRetryCount _)), LOut (RDevice (DUnit (Err _))) => False
  | (LInit _ _ | LInitRaw _), LInited (Err (SpiError _)) => False
  | LReset, LResetR (Err (RsOther _)) => False
  | LRawCall (RwEnable _ | RwDisable), LRaw (RwUnit (Err _)) => False
  | _, _ => True
  end.

Lemma init_dhcp_com e chk mc m s d s' : run e (initialize chk mc m) s = (Done (Ok d), s') ->
  forall x, x <> PHYCFGR -> com (s_chip s') x = over MR [u8 (mode_to_u8 m)] com_reset x.
Proof.
  intros R x Hx. unfold initialize in R. apply run_init in R as (s1 & c & h' & M1 & C1 & _ & _ & R & _).
  cbn [dhcp_new refresh run] in R. injection R as _ <-. destruct (N.eq_dec x MR) as [->|Hm]; [exact M1|].
  rewrite over_out; [now apply C1|]. right. change (len [_]) with 1. unfold MR in *. lia.
Qed.
Lemma fld_nth c a n d x : fld c a n = d -> a <= x < a + N.of_nat n -> com c x = nth (N.to_nat (x - a)) d x00.
Proof.
  unfold fld. intros <-. revert a. induction n as [|n IH]; intros a Hx; [lia|]. cbn [com_list].
  destruct (N.eq_dec x a) as [->|Hne]; [now rewrite N.sub_diag|].
  replace (N.to_nat (x - a)) with (S (N.to_nat (x - (a + 1)))) by lia. cbn [nth]. apply IH. lia.
Qed.
Lemma init_advanced_com e chk mc ip gw sn m s d s' : run e (initialize_advanced chk mc ip gw sn m) s = (Done (Ok d), s') ->
  forall x, x <> PHYCFGR -> com (s_chip s') x = addresses mc ip gw sn (over MR [u8 (mode_to_u8 m)] com_reset) x.
Proof.
  intros R x Hx. unfold initialize_advanced in R. apply run_init in R as (s1 & c & h' & M1 & C1 & (n & ->) & S1 & R & ->).
  assert (H : host_inv (mkHC mc ip gw sn) (manual_new mc ip gw sn) (s_chip s1)).
  { split; [reflexivity|]. split; [|discriminate].
    assert (Z : forall a n, GAR <= a -> a + N.of_nat n <= SIPR + 4 -> fld (s_chip s1) a n = zeros n).
    { intros a k Ha Hb. unfold fld. revert a Ha Hb. induction k as [|k IH]; intros a Ha Hb; cbn [com_list zeros repeat]; [reflexivity|]. f_equal.
      - rewrite C1 by (unfold GAR, SIPR, MR, PHYCFGR in *; lia). unfold com_reset.
        repeat match goal with |- context [?x =? ?y] => destruct (N.eqb_spec x y); [unfold GAR, SIPR, RTR, RCR, PHYCFGR, VERSIONR in *; lia|] end. reflexivity.
      - apply IH; lia. }
    unfold inplace. cbn [hc_gateway hc_subnet hc_mac hc_ip hc_default].
    repeat split; intros <-; rewrite Z by (vm_compute; discriminate); reflexivity. }
  pose proof (wp_run _ _ _ _ _ _ R (wp_refresh e _ _ s1 H)) as W. cbv beta in W. destruct W as (L & h2 & r & [= <- <-] & Hh & Hr).
  destruct (Hr eq_refl) as (cur & ->). destruct Hh as (_ & J & K). rewrite (K eq_refl) in J. apply inplace_all in J as (J1 & J2 & J3 & J4).
  cbn [hc_gateway hc_subnet hc_mac hc_ip] in *. destruct L as (q & _ & B1 & _). unfold addresses. change dotted with octets; change six with mac_octets.
  destruct (octets_len gw) as [Lg _]. destruct (octets_len sn) as [Ls _]. destruct (octets_len ip) as [Li _]. destruct (mac_octets_len mc) as [Lm _].
  destruct (N.lt_ge_cases x GAR) as [H0|H0].
  { rewrite !over_out by (rewrite ?Lg, ?Ls, ?Lm, ?Li; left; unfold GAR, SUBR, SHAR, SIPR in *; lia).
    assert (x = MR) as -> by (unfold GAR, MR in *; lia). rewrite B1 by (left; exact H0). rewrite com_alone by exact Hx. exact M1. }
  destruct (N.lt_ge_cases x SUBR) as [H1|H1].
  { rewrite over_in by (rewrite Lg; unfold GAR, SUBR in *; lia). apply (fld_nth _ _ _ _ _ J1). unfold GAR, SUBR in *; lia. }
  rewrite over_out by (right; rewrite Lg; unfold GAR, SUBR in *; lia).
  destruct (N.lt_ge_cases x SHAR) as [H2|H2].
  { rewrite over_in by (rewrite Ls; unfold SHAR, SUBR in *; lia). apply (fld_nth _ _ _ _ _ J2). unfold SHAR, SUBR in *; lia. }
  rewrite over_out by (right; rewrite Ls; unfold SHAR, SUBR in *; lia).
  destruct (N.lt_ge_cases x SIPR) as [H3|H3].
  { rewrite over_in by (rewrite Lm; unfold SHAR, SIPR in *; lia). apply (fld_nth _ _ _ _ _ J3). unfold SHAR, SIPR in *; lia. }
  rewrite over_out by (right; rewrite Lm; unfold SHAR, SIPR in *; lia).
  destruct (N.lt_ge_cases x (SIPR + 4)) as [H4|H4].
  { rewrite over_in by (rewrite Li; unfold SIPR in *; lia). apply (fld_nth _ _ _ _ _ J4). unfold SIPR in *; lia. }
  rewrite over_out by (right; rewrite Li; exact H4). rewrite over_out by (right; change (len [_]) with 1; unfold MR, SIPR in *; lia).
  rewrite B1 by (right; exact H4). rewrite com_alone by exact Hx. apply C1; [unfold SIPR, MR in *; lia|exact Hx].
Qed.
Lemma init_macraw_com e mc s d s' : run e (initialize_macraw mc) s = (Done (Ok d), s') ->
  forall x, x <> PHYCFGR -> com (s_chip s') x = over SHAR (mac_octets mc) com_reset x.
Proof.
  intros R x Hx. unfold initialize_macraw in R. apply run_try_ok in R as [([] & s1 & R1 & R)|(? & _ & [=])].
  apply run_try_ok in R as [([] & s2 & R2 & R)|(? & _ & [=])].
  assert (K : keeps_com x raw_new).
  { unfold raw_new, raw_zero_buffers, try_, command, write_frame. cbn [bind keeps_com].
    repeat first [exact Logic.I | split; [left; discriminate|] | intros [?|?]; cbn [bind keeps_com] ]. }
  pose proof (run_keeps e x raw_new Hx K s2) as E. rewrite R in E. cbn [snd] in E. rewrite E.
  destruct (mac_octets_len mc) as [Lm _].
  assert (B : SHAR + len (mac_octets mc) <= PHYCFGR) by (rewrite Lm; vm_compute; discriminate).
  change c_MAC with SHAR in R2. rewrite (run_common_ok e SHAR (mac_octets mc) s1 s2); [|now vm_compute|unfold PHYCFGR in B; lia|right; exact B|right; unfold PHYCFGR, VERSIONR in *; lia|exact R2|exact Hx].
  apply over_ext. exact (run_reset_ok e s s1 R1 x).
Qed.

(** ** One call *)
Definition raw_only (p : phase) : Prop := match p with RawUp d => d = raw0 | _ => True end.
Lemma run_rt_ok e t s s' : run e (dev_set_retry_timeout t) s = (Done (Ok tt), s') -> forall x, x <> PHYCFGR ->
  com (s_chip s') x = over RTR [u8 (rt_to_u16 t / 256); u8 (rt_to_u16 t)] (com (s_chip s)) x.
Proof.
  intros R x Hx. unfold dev_set_retry_timeout in R. apply run_try_ok in R as [([] & s1 & R1 & R)|(? & _ & [=])]. cbn [run] in R. injection R as <-.
  apply (run_common_ok e RTR (rt_to_register t) s s1); [now vm_compute|vm_compute; discriminate|right; vm_compute; discriminate|right; vm_compute; discriminate|exact R1|exact Hx].
Qed.
Lemma run_rc_ok e n s s' : run e (dev_set_retry_count n) s = (Done (Ok tt), s') -> forall x, x <> PHYCFGR ->
  com (s_chip s') x = over RCR [n] (com (s_chip s)) x.
Proof.
  intros R x Hx. unfold dev_set_retry_count in R. apply run_try_ok in R as [([] & s1 & R1 & R)|(? & _ & [=])]. cbn [run] in R. injection R as <-.
  apply (run_common_ok e RCR [n] s s1); [now vm_compute|vm_compute; discriminate|right; vm_compute; discriminate|right; vm_compute; discriminate|exact R1|exact Hx].
Qed.
Lemma run_simr_ok e v s s' : run e (write_frame COMMON c_SOCKET_INTERRUPT_MASK [v]) s = (Done (Ok tt), s') -> forall x, x <> PHYCFGR ->
  com (s_chip s') x = over SIMR [v] (com (s_chip s)) x.
Proof.
  intros R x Hx. apply (run_common_ok e SIMR [v] s s'); [now vm_compute|vm_compute; discriminate|right; vm_compute; discriminate|right; vm_compute; discriminate|exact R|exact Hx].
Qed.
Lemma run_same {A} e x (p : prog A) s o s' : x <> PHYCFGR -> keeps_com x p -> run e p s = (o, s') -> com (s_chip s') x = com (s_chip s) x.
Proof. intros Hx K R. pose proof (run_keeps e x p Hx K s) as E. rewrite R in E. exact E. Qed.
Lemma keeps_read x blk a n : keeps_com x (read_reg blk a n).
Proof. cbn. intros got [u|er] _; exact I. Qed.
Lemma keeps_uop x q : match q with UVersion | URetryTimeout | URetryCount => True | _ => False end -> keeps_com x (run_uop q).
Proof.
  intros H. destruct q; try destruct H; cbn [run_uop]; apply keeps_bind; try (intros; exact I);
    unfold dev_version, dev_current_retry_timeout, dev_current_retry_count, try_; (apply keeps_bind; [apply keeps_read|intros [?|?]; exact I]).
Qed.
Lemma keeps_mask x v : keeps_com x (set_interrupt_mask (socket_new 0) v).
Proof. cbn. split; [left; discriminate|intros; exact I]. Qed.
Lemma keeps_raw x fuel o : match o with RwEnable _ | RwDisable => False | _ => True end -> keeps_com x (raw_step fuel raw0 o).
Proof.
  intros H.
  assert (T : forall A (Q : A -> Prop) (p : prog A), ptree (sblk (raw_socket raw0)) anyw Q p -> keeps_com x p).
  { intros A Q p T. apply (keeps_ptree x 0 _ _ _ _) in T; [exact T|]. intros blk ad Hb. now apply (sblk_own 0 _ ad). }
  destruct o; try destruct H; cbn [raw_step]; (apply keeps_bind; [|intros; exact Logic.I]).
  - cbn. split; [left; discriminate|intros; exact I].
  - eapply T. apply (pt_raw_read_frame raw0). exact Logic.I.
  - eapply T. apply (pt_raw_write_frame raw0).
Qed.

Lemma init_refused e chk h m s x s' : run e (initialize_with_host chk h m) s = (Done (Err ChipNotConnected), s') -> x <> PHYCFGR ->
  com (s_chip s') x = com (s_chip s) x.
Proof.
  intros R Hx. assert (NR : forall t t' (y : InitializeError), run e (try a <- uninit_reset else (fun e => Err (SpiError e)) ;;
      try b <- dev_set_mode m else (fun e => Err (SpiError e)) ;; do r <- refresh h ;;
      match snd r with Err e => Ret (Err (SpiError e)) | Ok _ => Ret (Ok (ds_new (fst r))) end) t = (Done (Err y), t') -> y <> ChipNotConnected).
  { intros t t' y Y. apply run_try_ok in Y as [(? & ? & _ & Y)|(? & _ & [= ->])]; [|discriminate].
    apply run_try_ok in Y as [(? & ? & _ & Y)|(? & _ & [= ->])]; [|discriminate].
    apply run_bind_done in Y as ([? [?|?]] & ? & _ & Y); cbn [snd run] in Y; [discriminate Y|]. injection Y as <- _. discriminate. }
  unfold initialize_with_host in R. destruct chk; [|elim (NR _ _ _ R eq_refl)].
  apply run_try_ok in R as [(? & ? & _ & R)|(y & R & [= <-])]; [elim (NR _ _ _ R eq_refl)|].
  refine (run_same e x _ s _ s' Hx _ R). unfold assert_chip_version, dev_version, try_.
  apply keeps_bind; [apply keeps_bind; [apply keeps_read|intros [?|?]; exact I]|]. intros [?|?]; [|exact I]. destruct (negb _); exact I.
Qed.
Lemma setup_refused e chk k m s x s' : run e (run_setup chk k m) s = (Done (Err ChipNotConnected), s') -> x <> PHYCFGR ->
  com (s_chip s') x = com (s_chip s) x.
Proof. destruct k; exact (init_refused e chk _ m s x s'). Qed.
Lemma macraw_refused e mc s s' : run e (initialize_macraw mc) s = (Done (Err ChipNotConnected), s') -> False.
Proof.
  intros R. unfold initialize_macraw in R. repeat (apply run_try_ok in R as [(? & ? & _ & R)|(? & _ & [=])]).
  unfold raw_new in R. repeat (apply run_try_ok in R as [(? & ? & _ & R)|(? & _ & [=])]). discriminate R.
Qed.

Definition life_ok (l : life) : Prop := good (lhandles l) /\ raw_only (ph l).
Lemma run_map_done {A B} e (p : prog A) (f : A -> B) s v s' : run e (bind p (fun r => Ret (f r))) s = (Done v, s') ->
  exists r, run e p s = (Done r, s') /\ v = f r.
Proof. intros R. apply run_bind_done in R as (r & s1 & R1 & R). cbn [run] in R. injection R as <- <-. eauto. Qed.
Lemma call_common e fuel d hs n o s r s' : good hs -> run e (step fuel (mkApp d hs n) o) s = (Done r, s') ->
  good (handles (fst r)) /\ (clean (LCall o) (LOut (snd r)) -> forall x, x <> PHYCFGR -> com (s_chip s') x = common_after (com (s_chip s)) (LCall o) (LOut (snd r)) x).
Proof.
  intros G R. destruct r as [a' out]. cbn [fst snd]. split; [exact (run_good e fuel (mkApp d hs n) o s a' out s' G R)|]. intros C x Hx.
  destruct (op_writes o x) eqn:W.
  + destruct o as [| | | | | | | | | | | | | | | |q| |]; try discriminate W. cbn [step] in R. apply run_map_done in R as (v & R & [= _ ->]).
    destruct q; try discriminate W; cbn [run_devop] in R; apply run_map_done in R as (w & R & ->); cbn [clean] in C; destruct w as [[]|er]; try (elim C); cbn [common_after].
    * exact (run_mode_ok e m s s' R x Hx).
    * exact (run_rt_ok e _ s s' R x Hx).
    * exact (run_rc_ok e n0 s s' R x Hx).
    * exact (run_reset_ok e s s' R x).
  + rewrite (run_same e x _ s _ s' Hx (keeps_good x fuel (mkApp d hs n) o G W) R).
    destruct o as [| | | | | | | | | | | | | | | |q| |]; try reflexivity. destruct q; try reflexivity; cbn [op_writes common_after] in *; try discriminate W.
    * apply N.eqb_neq in W. rewrite over_out; [reflexivity|]. change (len [_]) with 1. unfold MR in *. lia.
    * unfold over. change (len [_; _]) with 2. now rewrite W.
    * apply N.eqb_neq in W. rewrite over_out; [reflexivity|]. change (len [_]) with 1. unfold RCR in *. lia.
Qed.
Lemma reset_common e d s r s' : run e (dev_reset d) s = (Done r, s') ->
  match r with
  | Ok _ => forall x, com (s_chip s') x = com_reset x
  | Err (RsOther _) => True
  | Err _ => s' = s
  end.
Proof.
  intros R. unfold dev_reset in R. destruct (any_allocated d); cbn [run] in R; [injection R as <- <-; reflexivity|].
  destruct r as [[]|er].
  - apply run_try_ok in R as [([] & s2 & R2 & R)|(? & _ & [=])]. cbn [run] in R. injection R as <-. exact (run_reset_ok e s s2 R2).
  - apply run_try_ok in R as [([] & s2 & R2 & R)|(y & _ & [= ->])]; [discriminate R|exact Logic.I].
Qed.
Lemma lstep_common e chk fuel l q s r s' : life_ok l -> run e (lstep chk fuel l q) s = (Done r, s') ->
  life_ok (fst r) /\ (clean q (snd r) -> forall x, x <> PHYCFGR -> com (s_chip s') x = common_after (com (s_chip s)) q (snd r) x).
Proof.
  intros [G RO] R. unfold lstep in R.
  Ltac triv R := cbn [run] in R; injection R as <- <-; split;
    [split; [assumption|cbn [fst ph]; match goal with P : ph ?l = _, RO : raw_only _ |- _ => rewrite ?P; first [exact RO|exact Logic.I] end]
    | intros _ x _; cbn [snd common_after]; repeat match goal with |- context [match ?z with _ => _ end] => destruct z end; reflexivity].
  destruct q as [u|k m|mc|o|o| | | |k|k], (ph l) as [|d|k'|rd|] eqn:P;
    try solve [triv R]; try solve [destruct (nth_error (asleep l) k); triv R].
  - (* an UninitializedDevice *)
    apply run_map_done in R as (v & R & ->). cbn [fst snd]. split; [split; [exact G|now rewrite P]|]. intros C x Hx.
    destruct u; try (cbn [common_after]; refine (run_same e x _ s _ s' Hx _ R); apply keeps_uop; exact I);
      cbn [run_uop] in R; apply run_map_done in R as (w & R & ->); cbn [clean] in C; destruct w as [[]|er]; try (elim C); cbn [common_after].
    + exact (run_reset_ok e s s' R x).
    + exact (run_mode_ok e m s s' R x Hx).
    + exact (run_rt_ok e _ s s' R x Hx).
    + exact (run_rc_ok e n s s' R x Hx).
  - (* initialize *)
    apply run_bind_done in R as ([d|er] & s1 & R1 & R); cbn [run] in R; injection R as <- <-; cbn [fst snd]; (split; [split; [exact G|exact Logic.I]|]); intros C x Hx.
    + destruct k; cbn [common_after run_setup] in *.
      * exact (init_dhcp_com e chk mc m s d s1 R1 x Hx).
      * exact (init_advanced_com e chk mc ip _ _ m s d s1 R1 x Hx).
      * exact (init_advanced_com e chk mc ip gateway subnet m s d s1 R1 x Hx).
    + cbn [clean] in C. destruct er; [elim C|]. rewrite (setup_refused e chk k m s x s1 R1 Hx). destruct k; reflexivity.
  - (* initialize_macraw *)
    apply run_bind_done in R as ([d|er] & s1 & R1 & R); cbn [run] in R; injection R as <- <-; cbn [fst snd].
    + destruct (initialize_macraw_up e mc s d s1 R1) as (-> & _). split; [split; [exact G|reflexivity]|]. intros _ x Hx.
      exact (init_macraw_com e mc s raw0 s1 R1 x Hx).
    + split; [split; [exact G|exact Logic.I]|]. intros C. cbn [clean] in C. destruct er; [elim C|]. elim (macraw_refused e mc s s1 R1).
  - (* a call on the device *)
    apply run_map_done in R as (v & R & ->). destruct (call_common e fuel d _ _ o s v s' G R) as (G' & K). split; [split; [exact G'|exact Logic.I]|exact K].
  - (* on a device by reference *)
    destruct (nth_error (asleep l) k') as [d|]; [|triv R].
    apply run_map_done in R as (v & R & ->). destruct (call_common e fuel d _ _ o s v s' G R) as (G' & K). split; [split; [exact G'|exact Logic.I]|exact K].
  - (* a call on the raw device *)
    apply run_map_done in R as (v & R & ->). cbn [fst snd]. split; [split; [exact G|rewrite P; exact RO]|]. cbn [raw_only] in RO. subst rd. intros C x Hx.
    destruct o; try (cbn [common_after]; refine (run_same e x _ s _ s' Hx _ R); apply keeps_raw; exact Logic.I);
      cbn [raw_step] in R; apply run_map_done in R as (w & R & ->); cbn [clean] in C; destruct w as [[]|er]; try (elim C); cbn [common_after].
    + unfold raw_enable_interrupts in R. apply run_try_ok in R as [([] & s1 & R1 & R)|(? & _ & [=])]. apply run_try_ok in R as [([] & s2 & R2 & R)|(? & _ & [=])].
      cbn [run] in R. injection R as <-. rewrite (run_simr_ok e _ s1 s2 R2 x Hx). apply over_ext. exact (run_same e x _ s _ s1 Hx (keeps_mask x _) R1).
    + unfold raw_disable_interrupts in R. apply run_try_ok in R as [([] & s1 & R1 & R)|(? & _ & [=])]. apply run_try_ok in R as [([] & s2 & R2 & R)|(? & _ & [=])].
      cbn [run] in R. injection R as <-. rewrite (run_same e x _ s1 _ s2 Hx (keeps_mask x _) R2). exact (run_simr_ok e _ s s1 R1 x Hx).
  - (* Device::reset *)
    apply run_bind_done in R as ([[]|er] & s1 & R1 & R); cbn [run] in R; injection R as <- <-; cbn [fst snd]; (split; [split; [exact G|exact Logic.I]|]); intros C x Hx;
      apply reset_common in R1; [apply R1|]. cbn [clean] in C. destruct er; [now subst|elim C].
  - destruct (nth_error (asleep l) k') as [d|]; [|triv R].
    apply run_bind_done in R as ([[]|er] & s1 & R1 & R); cbn [run] in R; injection R as <- <-; cbn [fst snd]; (split; [split; [exact G|exact Logic.I]|]); intros C x Hx;
      apply reset_common in R1; [apply R1|]. cbn [clean] in C. destruct er; [now subst|elim C].
Qed.
Lemma run_life_common e chk fuel : forall ops l s l' outs s', life_ok l ->
  run e (run_life chk fuel l ops) s = (Done (l', outs), s') -> Forall (fun p => clean (fst p) (snd p)) (combine ops outs) ->
  life_ok l' /\ forall x, x <> PHYCFGR ->
    com (s_chip s') x = fold_left (fun f p => common_after f (fst p) (snd p)) (combine ops outs) (com (s_chip s)) x.
Proof.
  induction ops as [|q ops IH]; intros l s l' outs s' K R F; cbn [run_life] in R.
  - cbn [run] in R. injection R as <- <- <-. split; [exact K|reflexivity].
  - apply run_bind_done in R as (r & s1 & R1 & R). apply run_bind_done in R as ([l2 os] & s2 & R2 & R). cbn [run fst snd] in R. injection R as <- <- <-.
    cbn [combine fold_left fst snd] in *. inversion F as [|? ? F1 F2]; subst. cbn [fst snd] in F1.
    destruct (lstep_common e chk fuel l q s r s1 K R1) as (K1 & E1). destruct (IH (fst r) s1 l2 os s2 K1 R2 F2) as (K2 & E2). split; [exact K2|].
    intros x Hx. rewrite E2 by exact Hx. clear - E1 F1 Hx. specialize (E1 F1).
    assert (X : forall l f g, (forall x, x <> PHYCFGR -> f x = g x) -> forall x, x <> PHYCFGR ->
      fold_left (fun f p => common_after f (fst p) (snd p)) l f x = fold_left (fun f p => common_after f (fst p) (snd p)) l g x).
    { induction l as [|p l IHl]; intros f g H y Hy; cbn [fold_left]; [now apply H|]. apply IHl; [|exact Hy]. clear - H. intros y Hy. destruct p as [q r]. cbn [fst snd].
      unfold common_after, addresses. repeat match goal with |- context [match ?z with _ => _ end] => destruct z end; try reflexivity; try (now apply H); apply over_ext; now apply H. }
    now apply X.
Qed.

(** ** The address registers of a Device, bus errors and unfinished calls included *)
Definition spares_addr (blk a : N) (v : byte) : Prop := blk <> 0 \/ a = MR \/ SIPR + 4 <= a.
Lemma spares_ptree {A} j (B : N -> N -> Prop) W G (p : prog A) : (forall blk a, B blk a -> own_block j blk) ->
  ptree B W G p -> mild spares_addr p.
Proof.
  intros HB. induction p as [a|w| |b a d k IH|b a d k IH]; cbn [ptree mild]; intros H; auto.
  - destruct H as [Hb H]. auto.
  - destruct H as [Hb H]. split; [|auto]. apply each_all. intros ad v. left. destruct (own_block_div j b (HB _ _ Hb)) as [E1 _]. now apply N.eqb_neq.
Qed.
Lemma spares_devop q : mild spares_addr (run_devop q).
Proof.
  destruct q; cbn [run_devop]; (apply mild_bind; [|intros; exact I]).
  all: try (cbn; intros got r _; destruct r; exact I).
  all: cbn [dev_set_mode dev_set_retry_timeout dev_set_retry_count reset_device mode_to_register rt_to_register to_be write_frame try_ bind mild each];
    (split; [|intros [?|?]; exact I]);
    repeat (split; [right; (left; reflexivity) || (right; vm_compute; discriminate)|]); exact I.
Qed.
Lemma spares_step fuel a o : good (handles a) -> mild spares_addr (step fuel a o).
Proof.
  intros G. pose proof (good_step fuel a o G) as T.
  destruct (op_handle o) as [h|] eqn:E.
  - destruct (lookup h (handles a)) as [y|] eqn:L.
    + destruct (good_lookup _ _ _ G L) as (j & Hj & Ej). apply (spares_ptree j _ _ _ _) in T; [exact T|].
      intros blk ad. unfold step_blk. rewrite E. intros (x' & L' & Hb). rewrite L in L'. injection L' as <-. rewrite Ej in Hb. now apply (sblk_own j _ ad).
    + destruct o; cbn [op_handle] in E; try discriminate E; injection E as ->; cbn [step]; try rewrite L; exact Logic.I.
  - destruct o; cbn [op_handle] in E; try discriminate E; cbn [step]; try exact Logic.I.
    + destruct (take_socket (dev a)) as [? []]; exact Logic.I.
    + destruct (tcp_socket (dev a)) as [? []]; exact Logic.I.
    + destruct (udp_socket (dev a)) as [? []]; exact Logic.I.
    + apply mild_bind; [|intros; exact Logic.I]. apply spares_devop.
Qed.
Definition addr_range (x : N) : Prop := GAR <= x < SIPR + 4.
Definition addr_inv (f : N -> byte) (c : chip) : Prop :=
  (forall x, addr_range x -> com c x = f x) \/ (forall x, addr_range x -> com c x = x00).
Lemma addr_ev f c ev : addr_inv f c -> addr_inv f (nstep c ev).
Proof.
  assert (E : forall x, addr_range x -> com (nstep c ev) x = com c x) by (intros x Hx; apply (com_nsteps x [ev]); unfold addr_range, SIPR, PHYCFGR in *; lia).
  intros [H|H]; [left|right]; intros x Hx; rewrite E by exact Hx; auto.
Qed.
Lemma addr_wr f c blk a v : spares_addr blk a v -> addr_inv f c -> addr_inv f (wbyte c blk a v).
Proof.
  intros P H. destruct (N.testbit (b2n v) 7 && (blk =? 0) && (a =? MR)) eqn:B.
  - rewrite !andb_true_iff in B. destruct B as [[B1 B2] B3]. apply N.eqb_eq in B2, B3. subst. right. intros x Hx.
    unfold wbyte. rewrite !N.eqb_refl, B1. unfold chip_reset, com_reset. cbn [com].
    repeat match goal with |- context [?x =? ?y] => destruct (N.eqb_spec x y); [unfold addr_range, GAR, SIPR, RTR, RCR, PHYCFGR, VERSIONR in *; lia|] end. reflexivity.
  - assert (E : forall x, addr_range x -> com (wbyte c blk a v) x = com c x).
    { intros x Hx. apply keeps_write_byte. destruct (N.eq_dec blk 0) as [->|]; [right|now left].
      split; [destruct P as [P|[-> |P]]; [congruence|unfold addr_range, GAR, MR in *; lia|unfold addr_range in *; lia]|].
      intros ->. change (0 =? 0) with true in B. rewrite N.eqb_refl, !andb_true_r in B. exact B. }
    destruct H as [H|H]; [left|right]; intros x Hx; rewrite E by exact Hx; auto.
Qed.
Lemma run_ops_addr e f fuel : forall ops a s, good (handles a) -> addr_inv f (s_chip s) -> addr_inv f (s_chip (snd (run e (run_ops fuel a ops) s))).
Proof.
  induction ops as [|o ops IH]; intros a s G H; cbn [run_ops]; [exact H|].
  pose proof (run_inv spares_addr e (addr_inv f) (addr_ev f) (addr_wr f) (step fuel a o) (spares_step fuel a o G) s H) as H1.
  rewrite run_bind. destruct (run e (step fuel a o) s) as [[[a1 o1]| | |] s1] eqn:R; cbn [fst snd] in *; try exact H1.
  specialize (IH a1 s1 (run_good e fuel a o s a1 o1 s1 G R) H1). rewrite run_bind.
  destruct (run e (run_ops fuel a1 ops) s1) as [[| | |] s2]; exact IH.
Qed.
Lemma reset_zero x : addr_range x -> com_reset x = x00.
Proof.
  intros Hx. unfold com_reset.
  repeat match goal with |- context [?x =? ?y] => destruct (N.eqb_spec x y); [unfold addr_range, GAR, SIPR, RTR, RCR, PHYCFGR, VERSIONR in *; lia|] end. reflexivity.
Qed.
Lemma run_ops_addr_keep e x fuel : forall ops a s, addr_range x -> good (handles a) -> Forall (fun o => o <> OpDevice QResetDevice) ops ->
  com (s_chip (snd (run e (run_ops fuel a ops) s))) x = com (s_chip s) x.
Proof.
  induction ops as [|o ops IH]; intros a s Hx G F; cbn [run_ops]; [reflexivity|]. inversion F as [|? ? F1 F2]; subst.
  assert (W : op_writes o x = false).
  { unfold addr_range, GAR, SIPR in Hx. destruct o as [| | | | | | | | | | | | | | | |q| |]; try reflexivity.
    destruct q; try reflexivity; cbn [op_writes]; [apply N.eqb_neq; unfold MR; lia| |apply N.eqb_neq; unfold RCR; lia|now elim F1].
    destruct (N.leb_spec RTR x); [unfold RTR in *; lia|reflexivity]. }
  assert (Hp : x <> PHYCFGR) by (unfold addr_range, SIPR, PHYCFGR in *; lia).
  pose proof (run_keeps e x (step fuel a o) Hp (keeps_good x fuel a o G W) s) as H1.
  rewrite run_bind. destruct (run e (step fuel a o) s) as [[[a1 o1]| | |] s1] eqn:R; cbn [fst snd] in *; try exact H1.
  specialize (IH a1 s1 Hx (run_good e fuel a o s a1 o1 s1 G R) F2). rewrite run_bind.
  destruct (run e (run_ops fuel a1 ops) s1) as [[| | |] s2]; cbn [fst snd] in *; rewrite <- H1; exact IH.
Qed.
Lemma fld_over c a (d : list byte) : (forall x, a <= x < a + len d -> com c x = nth (N.to_nat (x - a)) d x00) -> fld c a (length d) = d.
Proof.
  unfold fld. revert a. induction d as [|b d IH]; intros a H; cbn [com_list length]; [reflexivity|]. f_equal.
  - rewrite H by (unfold len; cbn [length]; lia). now rewrite N.sub_diag.
  - apply IH. intros x Hx. rewrite H by (unfold len in *; cbn [length]; lia).
    replace (N.to_nat (x - a)) with (S (N.to_nat (x - (a + 1)))) by lia. reflexivity.
Qed.
Lemma init_advanced_fields e chk mc ip gw sn m s d s' : run e (initialize_advanced chk mc ip gw sn m) s = (Done (Ok d), s') ->
  fld (s_chip s') GAR 4 = octets gw /\ fld (s_chip s') SUBR 4 = octets sn /\ fld (s_chip s') SHAR 6 = mac_octets mc /\ fld (s_chip s') SIPR 4 = octets ip.
Proof.
  intros R. pose proof (init_advanced_com e chk mc ip gw sn m s d s' R) as C. unfold addresses in C. change dotted with octets in C; change six with mac_octets in C.
  destruct (octets_len gw) as [Lg Ng]. destruct (octets_len sn) as [Ls Ns]. destruct (octets_len ip) as [Li Ni]. destruct (mac_octets_len mc) as [Lm Nm].
  split; [|split; [|split]].
  - rewrite <- Ng. apply fld_over. rewrite Lg. intros x Hx. rewrite C by (unfold GAR, PHYCFGR in *; lia).
    rewrite over_in by (rewrite Lg; exact Hx). reflexivity.
  - rewrite <- Ns. apply fld_over. rewrite Ls. intros x Hx. rewrite C by (unfold SUBR, PHYCFGR in *; lia).
    rewrite over_out by (right; rewrite Lg; unfold GAR, SUBR in *; lia). rewrite over_in by (rewrite Ls; exact Hx). reflexivity.
  - rewrite <- Nm. apply fld_over. rewrite Lm. intros x Hx. rewrite C by (unfold SHAR, PHYCFGR in *; lia).
    rewrite !over_out by (right; rewrite ?Lg, ?Ls; unfold GAR, SUBR, SHAR in *; lia). rewrite over_in by (rewrite Lm; exact Hx). reflexivity.
  - rewrite <- Ni. apply fld_over. rewrite Li. intros x Hx. rewrite C by (unfold SIPR, PHYCFGR in *; lia).
    rewrite !over_out by (right; rewrite ?Lg, ?Ls, ?Lm; unfold GAR, SUBR, SHAR, SIPR in *; lia). rewrite over_in by (rewrite Li; exact Hx). reflexivity.
Qed.
Lemma setup_timing e chk k m s d s' : run e (run_setup chk k m) s = (Done (Ok d), s') ->
  forall x, x <> PHYCFGR -> SIPR + 4 <= x -> com (s_chip s') x = com_reset x.
Proof.
  intros R x Hp Hx. destruct k as [mc|mc ip|mc ip gw sn]; cbn [run_setup] in R.
  - rewrite (init_dhcp_com _ _ _ _ _ _ _ R x Hp). apply over_out. right. change (len [_]) with 1. unfold MR, SIPR in *. lia.
  - unfold initialize_manual in R. rewrite (init_advanced_com _ _ _ _ _ _ _ _ _ _ R x Hp). unfold addresses. change dotted with octets; change six with mac_octets.
    repeat rewrite over_out; try reflexivity; right; rewrite ?(proj1 (octets_len _)), ?(proj1 (mac_octets_len _)); try (change (len [_]) with 1); unfold GAR, SUBR, SHAR, SIPR, MR in *; lia.
  - rewrite (init_advanced_com _ _ _ _ _ _ _ _ _ _ R x Hp). unfold addresses. change dotted with octets; change six with mac_octets.
    repeat rewrite over_out; try reflexivity; right; rewrite ?(proj1 (octets_len _)), ?(proj1 (mac_octets_len _)); try (change (len [_]) with 1); unfold GAR, SUBR, SHAR, SIPR, MR in *; lia.
Qed.

(** ** The address registers from an initialisation to the next reset, whatever devices the
    program puts away, wakes up or makes *)
Definition no_reset (q : lop) : Prop :=
  match q with
  | LUninit UReset | LInit _ _ | LInitRaw _ | LReset | LCall (OpDevice QResetDevice) => False
  | _ => True
  end.
Lemma keeps_ret {A} x (a : A) : keeps_com x (Ret a). Proof. exact Logic.I. Qed.
Lemma not_written o x : addr_range x -> o <> OpDevice QResetDevice -> op_writes o x = false.
Proof.
  intros Hx F. unfold addr_range, GAR, SIPR in Hx. destruct o as [| | | | | | | | | | | | | | | |q| |]; try reflexivity.
  destruct q; try reflexivity; cbn [op_writes]; [apply N.eqb_neq; unfold MR; lia| |apply N.eqb_neq; unfold RCR; lia|now elim F].
  destruct (N.leb_spec RTR x); [unfold RTR in *; lia|reflexivity].
Qed.
Lemma keeps_lstep x chk fuel l q : addr_range x -> life_ok l -> no_reset q -> keeps_com x (lstep chk fuel l q).
Proof.
  intros Hx [G RO] Hq.
  assert (C : forall d o, no_reset (LCall o) -> keeps_com x (step fuel (mkApp d (lhandles l) (lfresh l)) o)).
  { intros d o Ho. apply keeps_good; [exact G|]. apply not_written; [exact Hx|]. intros ->. exact Ho. }
  assert (D : forall q, q <> QResetDevice -> keeps_com x (run_devop q)).
  { intros q0 Hr. apply keeps_devop. apply not_written; [exact Hx|]. congruence. }
  assert (M : forall v, keeps_com x (write_frame COMMON c_SOCKET_INTERRUPT_MASK [v])).
  { intros v. cbn. split; [|intros; exact Logic.I]. right. split; [now vm_compute|]. change (len [v]) with 1. change c_SOCKET_INTERRUPT_MASK with SIMR.
    unfold addr_range, SIPR, SIMR, MR in *. split; [lia|discriminate]. }
  unfold lstep. destruct q as [u|k m|mc|o|o| | | |k|k], (ph l) as [|d|k'|rd|] eqn:P; try (elim Hq); try exact Logic.I;
    try (destruct (nth_error (asleep l) k); exact Logic.I).
  - apply keeps_bind; [|intros; exact Logic.I]. destruct u; try (elim Hq); try (apply keeps_uop; exact Logic.I); cbn [run_uop].
    + exact (D (QSetMode _) ltac:(discriminate)).
    + exact (D (QSetRetryTimeout _) ltac:(discriminate)).
    + exact (D (QSetRetryCount _) ltac:(discriminate)).
  - apply keeps_bind; [|intros; exact Logic.I]. now apply C.
  - destruct (nth_error (asleep l) k'); [|exact Logic.I]. apply keeps_bind; [|intros; exact Logic.I]. now apply C.
  - apply keeps_bind; [|intros; exact Logic.I]. cbn [raw_only] in RO. subst rd.
    destruct o; try (apply keeps_raw; exact Logic.I); cbn [raw_step]; (apply keeps_bind; [|intros; exact Logic.I]);
      unfold raw_enable_interrupts, raw_disable_interrupts, try_.
    + apply keeps_bind; [apply keeps_mask|]. intros [?|?]; [|exact Logic.I]. apply keeps_bind; [apply M|]. intros [?|?]; exact Logic.I.
    + apply keeps_bind; [apply M|]. intros [?|?]; [|exact Logic.I]. apply keeps_bind; [apply keeps_mask|]. intros [?|?]; exact Logic.I.
Qed.
Lemma run_life_addr e x chk fuel : addr_range x -> forall ops l s o s', life_ok l -> Forall no_reset ops ->
  run e (run_life chk fuel l ops) s = (o, s') -> com (s_chip s') x = com (s_chip s) x.
Proof.
  intros Hx. assert (Hp : x <> PHYCFGR) by (unfold addr_range, SIPR, PHYCFGR in *; lia).
  induction ops as [|q ops IH]; intros l s o s' K F R; cbn [run_life] in R.
  - cbn [run] in R. injection R as _ <-. reflexivity.
  - inversion F as [|? ? F1 F2]; subst. pose proof (run_keeps e x _ Hp (keeps_lstep x chk fuel l q Hx K F1) s) as E.
    rewrite run_bind in R. destruct (run e (lstep chk fuel l q) s) as [[r| | |] s1] eqn:R1; cbn [fst snd] in E, R; try (injection R as _ <-; exact E).
    destruct (lstep_common e chk fuel l q s r s1 K R1) as (K1 & _). rewrite <- E.
    rewrite run_bind in R. destruct (run e (run_life chk fuel (fst r) ops) s1) as [[rs| | |] s2] eqn:R2; cbn [fst snd] in R; injection R as _ <-;
      exact (IH (fst r) s1 _ s2 K1 F2 R2).
Qed.
Lemma run_life_ok e chk fuel : forall ops l s x s', life_ok l -> run e (run_life chk fuel l ops) s = (Done x, s') -> life_ok (fst x).
Proof.
  induction ops as [|q ops IH]; intros l s x s' K R; cbn [run_life] in R.
  - cbn [run] in R. injection R as <- _. exact K.
  - apply run_bind_done in R as (r & s1 & R1 & R). apply run_bind_done in R as (rs & s2 & R2 & R). cbn [run] in R. injection R as <- _. cbn [fst].
    destruct (lstep_common e chk fuel l q s r s1 K R1) as (K1 & _). exact (IH _ _ _ _ K1 R2).
Qed.

(** ** What the getters answer *)
Lemma run_getter_at {A} e a n (f : list byte -> A) s o s' : a + N.of_nat n <= 65536 -> (PHYCFGR < a \/ a + N.of_nat n <= PHYCFGR) ->
  run e (try o <- read_reg COMMON a n else Err ;; Ret (Ok (f o))) s = (Done (Ok o), s') -> o = f (com_list (com (s_chip s)) a n).
Proof.
  intros Ha Hb R. apply run_try_ok in R as [(v & s1 & R1 & R)|(x & _ & [=])]. cbn [run] in R. injection R as <- <-.
  unfold read_reg in R1. cbn [bind run] in R1. unfold bus_read in R1. unfold zeros in R1. rewrite repeat_length in R1.
  destruct (fails e (s_call s)) as [[q err]|].
  - destruct (read_bytes _ _ _ _ _); cbn [run bind] in R1; discriminate R1.
  - destruct (read_com e n a s Ha Hb) as (G1 & _).
    change COMMON with 0 in R1. destruct (read_bytes e 0 a n s) as [g s2]. cbn [run bind fst snd] in *. injection R1 as <- _. now rewrite G1.
Qed.
