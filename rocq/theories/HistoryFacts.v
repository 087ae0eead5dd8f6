(** Invariants of programs using one device, for arbitrary bus behaviour. *)
From Verif Require Export ErrorFacts.
From Verif Require Import Datasheet.
From Verif Require Import History.

(** ** Bit set of free sockets *)
Definition all8 : list N := [0; 1; 2; 3; 4; 5; 6; 7].
Lemma in_all8 i : In i all8 <-> i < 8.
Proof.
  split.
  - intros H. cbn in H. intuition (subst; reflexivity).
  - intros H. cbn. assert (i = 0 \/ i = 1 \/ i = 2 \/ i = 3 \/ i = 4 \/ i = 5 \/ i = 6 \/ i = 7) by lia.
    intuition auto.
Qed.

Lemma first_free_some l s i :
  first_free l s = Some i ->
  exists l1 l2, l = l1 ++ i :: l2 /\ N.testbit s i = true /\ forall j, In j l1 -> N.testbit s j = false.
Proof.
  induction l as [|x l IH]; cbn; [discriminate|].
  destruct (N.testbit s x) eqn:E.
  - intros [= ->]. exists [], l. repeat split; auto. intros j [].
  - intros H. destruct (IH H) as (l1 & l2 & -> & H1 & H2).
    exists (x :: l1), l2. repeat split; auto. intros j [<-|Hj]; auto.
Qed.
Lemma first_free_none l s : first_free l s = None -> forall i, In i l -> N.testbit s i = false.
Proof.
  induction l as [|x l IH]; cbn; [intros _ i []|].
  destruct (N.testbit s x) eqn:E; [discriminate|]. intros H i [<-|Hi]; auto.
Qed.

Lemma first_free8_some s i :
  first_free all8 s = Some i ->
  i < 8 /\ N.testbit s i = true /\ forall j, j < i -> N.testbit s j = false.
Proof.
  unfold all8. cbn [first_free].
  repeat match goal with
         | |- context [if N.testbit s ?k then _ else _] =>
             let E := fresh "E" in destruct (N.testbit s k) eqn:E;
             [intros [= <-]; split; [lia|]; split; [exact E|]; intros j Hj;
              assert (j = 0 \/ j = 1 \/ j = 2 \/ j = 3 \/ j = 4 \/ j = 5 \/ j = 6 \/ j = 7) as Hc by lia;
              repeat destruct Hc as [->|Hc]; subst; solve [assumption|lia]|]
         end.
  discriminate.
Qed.

Lemma setbit_clearbit_ne s i j : i <> j -> N.testbit (N.clearbit s i) j = N.testbit s j.
Proof. intros. now rewrite N.clearbit_neq. Qed.

(** number of free sockets *)
Definition b2nat (b : bool) : nat := if b then 1 else 0.
Fixpoint count (l : list N) (s : N) : nat :=
  match l with [] => 0 | i :: l' => b2nat (N.testbit s i) + count l' s end.
Definition free_count (s : N) : nat := count all8 s.

Lemma count_clear l s i :
  NoDup l -> In i l -> N.testbit s i = true -> S (count l (N.clearbit s i)) = count l s.
Proof.
  induction l as [|x l IH]; intros ND Hin Hi; [destruct Hin|]. cbn [count].
  inversion ND; subst. destruct Hin as [->|Hin].
  - rewrite N.clearbit_eq, Hi. cbn [b2nat Nat.add]. f_equal.
    clear IH ND. induction l as [|y l IH]; [reflexivity|]. cbn [count].
    rewrite N.clearbit_neq by (intros ->; apply H1; left; auto).
    f_equal. apply IH; [intros Hn; apply H1; right; auto|inversion H2; auto].
  - rewrite N.clearbit_neq by (intros ->; contradiction).
    rewrite <- (IH H2 Hin Hi). lia.
Qed.
Lemma count_set l s i :
  NoDup l -> In i l -> N.testbit s i = false -> count l (N.setbit s i) = S (count l s).
Proof.
  induction l as [|x l IH]; intros ND Hin Hi; [destruct Hin|]. cbn [count].
  inversion ND; subst. destruct Hin as [->|Hin].
  - rewrite N.setbit_eq, Hi. cbn [b2nat Nat.add]. f_equal.
    clear IH ND. induction l as [|y l IH]; [reflexivity|]. cbn [count].
    rewrite N.setbit_neq by (intros ->; apply H1; left; auto).
    f_equal. apply IH; [intros Hn; apply H1; right; auto|inversion H2; auto].
  - rewrite N.setbit_neq by (intros ->; contradiction).
    rewrite (IH H2 Hin Hi). lia.
Qed.
Lemma nodup_all8 : NoDup all8.
Proof. unfold all8. repeat (constructor; [cbn; lia|]). constructor. Qed.

Lemma count_zero l s : count l s = 0%nat <-> forall i, In i l -> N.testbit s i = false.
Proof.
  induction l as [|x l IH]; cbn [count]; [split; [intros _ i []|auto]|].
  split.
  - intros H i [<-|Hi]; [destruct (N.testbit s x); [discriminate|auto]|].
    apply IH; [destruct (N.testbit s x); [discriminate|exact H]|exact Hi].
  - intros H. rewrite (H x (or_introl eq_refl)). cbn. apply IH. intros i Hi. apply H. right. exact Hi.
Qed.
Lemma count_le l s : (count l s <= length l)%nat.
Proof. induction l as [|x l IH]; cbn; [lia|]. destruct (N.testbit s x); cbn; lia. Qed.

(** ** The handle table *)
Definition ids (l : list (nat * handle)) : list nat := map fst l.
Definition hidx (x : nat * handle) : N := index (handle_socket (snd x)).
Definition idxs (l : list (nat * handle)) : list N := map hidx l.

Lemma lookup_in h l x : lookup h l = Some x -> In (h, x) l.
Proof.
  induction l as [|[i y] l IH]; cbn; [discriminate|].
  destruct (Nat.eqb_spec i h) as [->|]; [intros [= ->]; auto|auto].
Qed.
Lemma in_lookup h l x : NoDup (ids l) -> In (h, x) l -> lookup h l = Some x.
Proof.
  induction l as [|[i y] l IH]; cbn; intros ND; [intros []|]. inversion ND; subst.
  intros [[= -> ->]|Hin]; [now rewrite Nat.eqb_refl|].
  destruct (Nat.eqb_spec i h) as [->|]; [|auto].
  exfalso. apply H1. apply in_map_iff. exists (h, x). auto.
Qed.
Lemma remove_in h l i x : In (i, x) (remove h l) -> In (i, x) l /\ i <> h.
Proof.
  induction l as [|[j y] l IH]; cbn; [intros []|].
  destruct (Nat.eqb_spec j h) as [->|]; [intros H; apply IH in H; tauto|].
  intros [[= -> ->]|H]; [auto|]. apply IH in H. tauto.
Qed.
Lemma in_remove h l i x : In (i, x) l -> i <> h -> In (i, x) (remove h l).
Proof.
  induction l as [|[j y] l IH]; cbn; [intros []|].
  intros [[= -> ->]|Hin] Hne.
  - destruct (Nat.eqb_spec i h); [contradiction|left; auto].
  - destruct (Nat.eqb_spec j h); [auto|right; auto].
Qed.
Lemma remove_nodup_map {B} (f : nat * handle -> B) h l : NoDup (map f l) -> NoDup (map f (remove h l)).
Proof.
  induction l as [|[j y] l IH]; cbn; [auto|]. inversion 1; subst.
  destruct (Nat.eqb_spec j h); [auto|]. cbn. constructor; [|auto].
  intros Hin. apply H2. apply in_map_iff in Hin as ([i x] & E & Hin).
  apply remove_in in Hin. apply in_map_iff. exists (i, x). tauto.
Qed.
Lemma update_ids h v l : ids (update h v l) = ids l.
Proof. induction l as [|[j y] l IH]; cbn; [auto|]. destruct (Nat.eqb_spec j h) as [->|]; cbn; [reflexivity|]. unfold ids in IH. now rewrite IH. Qed.
Lemma update_idxs h v l x :
  lookup h l = Some x -> handle_socket v = handle_socket x -> idxs (update h v l) = idxs l.
Proof.
  induction l as [|[j y] l IH]; cbn; [discriminate|]. destruct (Nat.eqb_spec j h); cbn.
  - intros [= ->] E. unfold hidx. cbn. now rewrite E.
  - intros H1 H2. f_equal. now apply IH.
Qed.
Lemma update_in h v l i x : In (i, x) (update h v l) -> In (i, x) l \/ (i = h /\ x = v).
Proof.
  induction l as [|[j y] l IH]; cbn; [auto|]. destruct (Nat.eqb_spec j h); cbn.
  - intros [[= -> ->]|H]; auto.
  - intros [[= -> ->]|H]; auto. apply IH in H. tauto.
Qed.

Lemma NoDup_snoc {A} (l : list A) x : NoDup l -> ~ In x l -> NoDup (l ++ [x]).
Proof.
  induction l as [|y l IH]; cbn; intros ND Hn; [constructor; [auto|constructor]|].
  inversion ND; subst. constructor.
  - rewrite in_app_iff. cbn. intuition.
  - apply IH; auto.
Qed.

(** ** The pool invariant *)
Record pool_inv (a : app) : Prop := {
  pi_socket : forall h x, In (h, x) (handles a) ->
    exists i, i < 8 /\ handle_socket x = socket_new i /\ N.testbit (ds_sockets (dev a)) i = false;
  pi_idx : NoDup (idxs (handles a));
  pi_ids : NoDup (ids (handles a));
  pi_fresh : forall h x, In (h, x) (handles a) -> (h < fresh a)%nat;
  pi_high : forall j, 8 <= j -> N.testbit (ds_sockets (dev a)) j = false
}.

Lemma pi_lookup a h x : pool_inv a -> lookup h (handles a) = Some x ->
  exists i, i < 8 /\ handle_socket x = socket_new i /\ N.testbit (ds_sockets (dev a)) i = false.
Proof. intros I H. eapply pi_socket; [exact I|]. apply lookup_in; exact H. Qed.

Lemma pool_grant a i d x :
  pool_inv a -> first_free all8 (ds_sockets (dev a)) = Some i ->
  d = mkDS (ds_host (dev a)) (N.clearbit (ds_sockets (dev a)) i) ->
  handle_socket x = socket_new i ->
  pool_inv (grant a d x).
Proof.
  intros I F -> Hx. apply first_free8_some in F as (Hi & Hb & _).
  unfold grant. constructor; cbn [handles dev fresh ds_sockets].
  - intros h y Hin. apply in_app_iff in Hin as [Hin|[[= <- <-]|[]]].
    + destruct (pi_socket _ I _ _ Hin) as (j & Hj & Ej & Bj). exists j. repeat split; auto.
      destruct (N.eq_dec i j) as [->|Hne]; [congruence|]. now rewrite N.clearbit_neq.
    + exists i. repeat split; auto. apply N.clearbit_eq.
  - unfold idxs. rewrite map_app. apply NoDup_snoc; [apply I|]. intros Hin.
    apply in_map_iff in Hin as ([h y] & E & Hin).
    destruct (pi_socket _ I _ _ Hin) as (j & Hj & Ej & Bj).
    unfold hidx in E. cbn [snd] in E. rewrite Ej, Hx in E. cbn in E. congruence.
  - unfold ids. rewrite map_app. apply NoDup_snoc; [apply I|]. intros Hin. cbn in Hin.
    apply in_map_iff in Hin as ([h y] & E & Hin). cbn in E. subst.
    apply (pi_fresh _ I) in Hin. lia.
  - intros h y Hin. apply in_app_iff in Hin as [Hin|[[= <- <-]|[]]]; [|lia].
    apply (pi_fresh _ I) in Hin. lia.
  - intros j Hj. rewrite N.clearbit_neq by lia. now apply (pi_high _ I).
Qed.

Lemma pool_remove a h : pool_inv a -> pool_inv (consume a (dev a) h).
Proof.
  intros I. unfold consume. constructor; cbn [handles dev fresh].
  - intros i x Hin. apply remove_in in Hin as [Hin _]. now apply (pi_socket _ I i).
  - apply remove_nodup_map, I.
  - apply remove_nodup_map, I.
  - intros i x Hin. apply remove_in in Hin as [Hin _]. now apply (pi_fresh _ I i x).
  - apply I.
Qed.

Lemma pool_release a h x d :
  pool_inv a -> lookup h (handles a) = Some x ->
  release_socket (dev a) (handle_socket x) = Some d -> pool_inv (consume a d h).
Proof.
  intros I L R. destruct (pi_lookup _ _ _ I L) as (i & Hi & Ei & Bi).
  unfold release_socket in R. rewrite Ei in R.
  destruct (socket_blocks i Hi) as (_ & _ & _ & Ix). rewrite Ix in R.
  destruct (N.ltb_spec i 8); [|lia]. injection R as <-.
  unfold consume. constructor; cbn [handles dev fresh ds_sockets].
  - intros j y Hin. apply remove_in in Hin as [Hin Hne].
    destruct (pi_socket _ I _ _ Hin) as (k & Hk & Ek & Bk). exists k. repeat split; auto.
    destruct (N.eq_dec i k) as [->|Hn]; [|now rewrite N.setbit_neq].
    exfalso. apply Hne.
    (* two handles with the same index *)
    assert (Ixy : hidx (j, y) = hidx (h, x)) by (unfold hidx; cbn; now rewrite Ek, Ei).
    apply lookup_in in L. pose proof (pi_idx _ I) as ND. unfold idxs in ND.
    apply in_split in L as (l1 & l2 & E). rewrite E in ND, Hin.
    rewrite map_app in ND. cbn in ND. apply NoDup_remove_2 in ND.
    apply in_app_iff in Hin. cbn in Hin. destruct Hin as [Hin|[[= -> ->]|Hin]]; [|reflexivity|].
    + exfalso. apply ND. apply in_app_iff. left. rewrite <- Ixy. now apply in_map.
    + exfalso. apply ND. apply in_app_iff. right. rewrite <- Ixy. now apply in_map.
  - apply remove_nodup_map, I.
  - apply remove_nodup_map, I.
  - intros j y Hin. apply remove_in in Hin as [Hin _]. now apply (pi_fresh _ I j y).
  - intros j Hj. rewrite N.setbit_neq by lia. now apply (pi_high _ I).
Qed.

Lemma pool_put a h x v :
  pool_inv a -> lookup h (handles a) = Some x -> handle_socket v = handle_socket x ->
  pool_inv (put a h v).
Proof.
  intros I L E. unfold put. constructor; cbn [handles dev fresh].
  - intros i y Hin. apply update_in in Hin as [Hin|[-> ->]]; [now apply (pi_socket _ I i)|].
    rewrite E. apply (pi_socket _ I h). now apply lookup_in.
  - erewrite update_idxs; eauto. apply I.
  - rewrite update_ids. apply I.
  - intros i y Hin. apply update_in in Hin as [Hin|[-> ->]]; [now apply (pi_fresh _ I i y)|].
    apply (pi_fresh _ I h x). now apply lookup_in.
  - apply I.
Qed.

(** ** What one call does *)
Definition op_handle (o : op) : option nat :=
  match o with
  | OpReleaseSocket h | OpTcpConnect h _ | OpTcpSend h _ | OpTcpReceive h _ | OpTcpClose h
  | OpUdpConnect h _ | OpUdpBind h _ | OpUdpSend h _ | OpUdpSendTo h _ _ | OpUdpReceive h _
  | OpUdpClose h | OpForget h | OpUdpSetPort h _ | OpSocket h _ => Some h
  | _ => None
  end.

Definition step_blk (a : app) (o : op) (blk addr : N) : Prop :=
  match op_handle o with
  | Some h => exists x, lookup h (handles a) = Some x /\ sblk (handle_socket x) blk addr
  | None => match o with OpDevice _ => cblk blk addr | _ => False end
  end.

Definition step_panics (o : op) (w : site) : Prop :=
  match o with OpUdpReceive _ _ => w = P_udp_recv_slice | _ => False end.

Definition out_would_block (o : out) : Prop :=
  match o with
  | RTcpConnect r => r = Err WouldBlock | RTcpSend r => r = Err WouldBlock
  | RTcpReceive _ r => r = Err WouldBlock
  | RUdpSend r => r = Err WouldBlock | RUdpReceive _ r => r = Err WouldBlock
  | _ => False
  end.

(** sockets handed out / given back by a call *)
Definition gained (o : out) : nat :=
  match o with RSocket (Some _) | RTcpSocket (Ok _) | RUdpSocket (Ok _) => 1 | _ => 0 end.
Definition given_back (oo : op * out) : nat :=
  match oo with
  | (OpReleaseSocket _, RUnit) => 1
  | (OpTcpClose _, RTcpClose (Ok _)) => 1
  | (OpUdpClose _, RUdpUnit (Ok _)) => 1
  | _ => 0
  end.

(** calls that drop a handle without giving its socket back *)
Definition leaks (oo : op * out) : bool :=
  match oo with
  | (OpForget _, _) => true
  | (OpTcpClose _, RTcpClose (Err _)) => true
  | (OpUdpClose _, RUdpUnit (Err _)) => true
  | _ => false
  end.

Definition step_post (a : app) (o : op) (r : app * out) : Prop :=
  pool_inv (fst r) /\
  (leaks (o, snd r) = false ->
   length (handles (fst r)) + given_back (o, snd r) = length (handles a) + gained (snd r))%nat /\
  (out_would_block (snd r) -> exists h b, o = OpUdpReceive h b) /\
  (free_count (ds_sockets (dev (fst r))) + gained (snd r)
   = free_count (ds_sockets (dev a)) + given_back (o, snd r))%nat.

Lemma ptree_map {A C} B W (G : A -> Prop) (G' : C -> Prop) p (f : A -> C) :
  ptree B W G p -> (forall a, G a -> G' (f a)) -> ptree B W G' (bind p (fun r => Ret (f r))).
Proof. intros H Hf. eapply ptree_bind; [exact H|]. intros a Ha. cbn. auto. Qed.

Lemma free_release a h x d :
  pool_inv a -> lookup h (handles a) = Some x ->
  release_socket (dev a) (handle_socket x) = Some d ->
  free_count (ds_sockets d) = S (free_count (ds_sockets (dev a))).
Proof.
  intros I L R. destruct (pi_lookup _ _ _ I L) as (i & Hi & Ei & Bi).
  unfold release_socket in R. rewrite Ei in R.
  destruct (socket_blocks i Hi) as (_ & _ & _ & Ix). rewrite Ix in R.
  destruct (N.ltb_spec i 8); [|lia]. injection R as <-. cbn [ds_sockets].
  apply count_set; [apply nodup_all8|now apply in_all8|exact Bi].
Qed.
Lemma release_ok a h x :
  pool_inv a -> lookup h (handles a) = Some x ->
  exists d, release_socket (dev a) (handle_socket x) = Some d.
Proof.
  intros I L. destruct (pi_lookup _ _ _ I L) as (i & Hi & Ei & Bi).
  unfold release_socket. rewrite Ei.
  destruct (socket_blocks i Hi) as (_ & _ & _ & Ix). rewrite Ix.
  destruct (N.ltb_spec i 8); [|lia]. eauto.
Qed.
Lemma free_grant s i : first_free all8 s = Some i ->
  S (free_count (N.clearbit s i)) = free_count s.
Proof.
  intros F. apply first_free8_some in F as (Hi & Hb & _).
  apply count_clear; [apply nodup_all8|now apply in_all8|exact Hb].
Qed.

Lemma app_eta a : mkApp (dev a) (handles a) (fresh a) = a.
Proof. destruct a; reflexivity. Qed.

(** W and B weakening used below *)
Lemma pt_sock {A} a h x (G : A -> Prop) (p : prog A) o :
  op_handle o = Some h -> lookup h (handles a) = Some x ->
  ptree (sblk (handle_socket x)) (step_panics o) G p ->
  ptree (step_blk a o) (step_panics o) G p.
Proof.
  intros Ho L. apply ptree_mono; auto. intros blk ad Hb. unfold step_blk. rewrite Ho. eauto.
Qed.

Lemma remove_length h l x : NoDup (ids l) -> lookup h l = Some x -> S (length (remove h l)) = length l.
Proof.
  induction l as [|[j y] l IH]; cbn; [discriminate|]. inversion 1; subst.
  destruct (Nat.eqb_spec j h) as [->|Hne].
  - intros _. f_equal. clear IH H H3. induction l as [|[k z] l IH]; [reflexivity|]. cbn in *.
    destruct (Nat.eqb_spec k h) as [->|]; [exfalso; tauto|]. cbn. f_equal. apply IH. tauto.
  - intros L. cbn. f_equal. now apply IH.
Qed.
Lemma update_length h v l : length (update h v l) = length l.
Proof. induction l as [|[j y] l IH]; cbn; [auto|]. destruct (Nat.eqb_spec j h); cbn; congruence. Qed.

Lemma unchanged_post a o out :
  pool_inv a -> (out_would_block out -> exists h b, o = OpUdpReceive h b) ->
  gained out = 0%nat -> given_back (o, out) = 0%nat -> step_post a o (a, out).
Proof. intros I H1 H2 H3. unfold step_post. cbn [fst snd]. rewrite H2, H3. split; [exact I|]. split; [intros _; reflexivity|]. split; [exact H1|reflexivity]. Qed.

Ltac nohandle I := apply unchanged_post; [exact I|cbn; tauto|reflexivity|reflexivity].

Lemma close_case {E} a h x (p : prog (res unit E)) (mk : res unit E -> out) o :
  pool_inv a -> op_handle o = Some h -> lookup h (handles a) = Some x ->
  ptree (sblk (handle_socket x)) (step_panics o) (fun _ => True) p ->
  (forall r, out_would_block (mk r) -> False) -> (forall r, gained (mk r) = 0%nat) ->
  (given_back (o, mk (Ok tt)) = 1%nat) -> (forall e, given_back (o, mk (Err e)) = 0%nat) ->
  (forall e, leaks (o, mk (Err e)) = true) ->
  ptree (step_blk a o) (step_panics o) (step_post a o)
    (do r <- (try a0 <- p else (fun e => (dev a, Err e)) ;;
              match release_socket (dev a) (handle_socket x) with
              | Some d' => Ret (d', Ok tt)
              | None => Panic P_set_bit
              end) ;; Ret (consume a (fst r) h, mk (snd r))).
Proof.
  intros I Ho L Hp Hw Hg H1 H0 HL. eapply pt_sock; eauto.
  eapply ptree_bind with (G := fun r => (r = (dev a, snd r) /\ (exists e, snd r = Err e)) \/
      (snd r = Ok tt /\ release_socket (dev a) (handle_socket x) = Some (fst r))).
  - eapply ptree_tryw; [exact Hp| |].
    + intros u _. destruct (release_ok _ _ _ I L) as (d & R). rewrite R. cbn. right. auto.
    + cbn. left. eauto.
  - intros [d r] [[Eq (e & Ee)]|[Er Rl]]; cbn [fst snd] in *; subst; cbn [ptree].
    + injection Eq as ->. unfold step_post. cbn [fst snd]. rewrite Hg, H0. split; [now apply pool_remove|].
      split; [rewrite HL; discriminate|]. split; [intros W; now apply Hw in W|]. cbn. reflexivity.
    + unfold step_post. cbn [fst snd]. rewrite Hg, H1. split; [eapply pool_release; eauto|].
      split; [intros _; cbn [consume handles]; rewrite <- (remove_length h (handles a) x) by (auto; apply I); lia|].
      split; [intros W; now apply Hw in W|]. cbn [consume dev]. erewrite free_release; eauto. lia.
Qed.

Lemma pt_run_sockop k W fuel q : ptree (sblk k) W (fun _ => True) (run_sockop fuel k q).
Proof.
  destruct q; cbn [run_sockop]; eapply ptree_bind;
    first [ simple apply pt_set_mode | simple apply pt_get_status | simple apply pt_reset_interrupt | simple apply pt_has_interrupt
          | simple apply pt_set_source_port | simple apply pt_set_destination_ip | simple apply pt_set_destination_port
          | simple apply pt_get_tx_read_pointer | simple apply pt_get_tx_write_pointer | simple apply pt_set_tx_write_pointer
          | simple apply pt_get_rx_read_pointer | simple apply pt_set_rx_read_pointer | simple apply pt_set_interrupt_mask
          | simple apply pt_command | simple apply pt_get_receive_size | simple apply pt_get_tx_free_size
          | apply ptree_write with (G := fun _ => True); [apply sblk_reg; reflexivity|auto]
          | intros; exact Logic.I ].
Qed.
Lemma pt_step fuel a o :
  pool_inv a -> ptree (step_blk a o) (step_panics o) (step_post a o) (step fuel a o).
Proof.
  intros I.
  destruct o as [|h| |h r|h d|h b|h| |h r|h pt|h d|h r d|h b|h|h| |q|h pt|h q]; cbn [step].
  - (* take_socket *)
    unfold take_socket. change [0; 1; 2; 3; 4; 5; 6; 7] with all8.
    destruct (first_free all8 (ds_sockets (dev a))) as [i|] eqn:F; cbn [ptree].
    + split; [eapply pool_grant; eauto; reflexivity|].
      split; [intros _; cbn [fst snd grant handles gained given_back]; rewrite app_length; cbn; lia|].
      split; [cbn; tauto|].
      cbn [fst snd grant dev ds_sockets gained given_back]. pose proof (free_grant _ _ F). lia.
    + rewrite app_eta. nohandle I.
  - (* release_socket *)
    destruct (lookup h (handles a)) as [[s|t|u]|] eqn:L; try nohandle I.
    destruct (release_ok _ _ _ I L) as (d & R). cbn [handle_socket] in R. rewrite R. cbn [ptree].
    split; [eapply pool_release; eauto|].
    split; [intros _; cbn [fst snd consume handles gained given_back]; rewrite <- (remove_length h (handles a) (HSock s)) by (auto; apply I); lia|].
    split; [cbn; tauto|].
    cbn [fst snd consume dev ds_sockets gained given_back]. erewrite free_release; eauto. lia.
  - (* tcp socket *)
    unfold tcp_socket, take_socket. change [0; 1; 2; 3; 4; 5; 6; 7] with all8.
    destruct (first_free all8 (ds_sockets (dev a))) as [i|] eqn:F; cbn [ptree].
    + split; [eapply pool_grant; eauto; reflexivity|].
      split; [intros _; cbn [fst snd grant handles gained given_back]; rewrite app_length; cbn; lia|].
      split; [cbn; tauto|].
      cbn [fst snd grant dev ds_sockets gained given_back]. pose proof (free_grant _ _ F). lia.
    + rewrite app_eta. nohandle I.
  - destruct (lookup h (handles a)) as [[s|t|u]|] eqn:L; try nohandle I.
    eapply pt_sock; eauto; [reflexivity|].
    eapply ptree_map; [apply (pt_tcp_connect t)|]. intros x Hx.
    apply unchanged_post; auto. intros Hw. now apply Hx in Hw.
  - destruct (lookup h (handles a)) as [[s|t|u]|] eqn:L; try nohandle I.
    eapply pt_sock; eauto; [reflexivity|].
    eapply ptree_map; [apply (pt_tcp_send t)|]. intros x [Hx _].
    apply unchanged_post; auto. intros Hw. now apply Hx in Hw.
  - destruct (lookup h (handles a)) as [[s|t|u]|] eqn:L; try nohandle I.
    eapply pt_sock; eauto; [reflexivity|].
    eapply ptree_map; [apply (pt_tcp_receive t)|]. intros x [Hx _].
    apply unchanged_post; auto. intros Hw. now apply Hx in Hw.
  - destruct (lookup h (handles a)) as [[s|t|u]|] eqn:L; try nohandle I.
    unfold tcp_close. change (t_socket t) with (handle_socket (HTcp t)).
    apply (close_case a h (HTcp t) (tcp_socket_close t) RTcpClose); auto.
    apply pt_tcp_socket_close.
  - (* udp socket *)
    unfold udp_socket, take_socket. change [0; 1; 2; 3; 4; 5; 6; 7] with all8.
    destruct (first_free all8 (ds_sockets (dev a))) as [i|] eqn:F; cbn [ptree].
    + split; [eapply pool_grant; eauto; reflexivity|].
      split; [intros _; cbn [fst snd grant handles gained given_back]; rewrite app_length; cbn; lia|].
      split; [cbn; tauto|].
      cbn [fst snd grant dev ds_sockets gained given_back]. pose proof (free_grant _ _ F). lia.
    + rewrite app_eta. nohandle I.
  - destruct (lookup h (handles a)) as [[s|t|u]|] eqn:L; try nohandle I.
    eapply pt_sock; eauto; [reflexivity|].
    eapply ptree_map; [apply (pt_udp_connect u)|]. intros x Hx.
    split; [eapply pool_put; eauto|].
    split; [intros _; cbn [fst snd put handles gained given_back]; now rewrite update_length|].
    split; [cbn; tauto|]. cbn. reflexivity.
  - destruct (lookup h (handles a)) as [[s|t|u]|] eqn:L; try nohandle I.
    eapply pt_sock; eauto; [reflexivity|].
    eapply ptree_map; [apply (pt_udp_bind u)|]. intros x Hx.
    split; [eapply pool_put; eauto|].
    split; [intros _; cbn [fst snd put handles gained given_back]; now rewrite update_length|].
    split; [cbn; tauto|]. cbn. reflexivity.
  - destruct (lookup h (handles a)) as [[s|t|u]|] eqn:L; try nohandle I.
    eapply pt_sock; eauto; [reflexivity|].
    eapply ptree_map; [apply (pt_udp_send_all u)|]. intros x Hx.
    apply unchanged_post; auto. intros Hw. now apply Hx in Hw.
  - destruct (lookup h (handles a)) as [[s|t|u]|] eqn:L; try nohandle I.
    eapply pt_sock; eauto; [reflexivity|].
    eapply ptree_map; [apply (pt_udp_send_to u)|]. intros x [Hx Hn].
    split; [eapply pool_put; eauto|].
    split; [intros _; cbn [fst snd put handles gained given_back]; now rewrite update_length|].
    split; [intros Hw; now apply Hn in Hw|]. cbn. reflexivity.
  - destruct (lookup h (handles a)) as [[s|t|u]|] eqn:L; try nohandle I.
    eapply pt_sock; eauto; [reflexivity|].
    eapply ptree_map; [apply (pt_udp_receive u); reflexivity|]. intros x Hx.
    apply unchanged_post; auto. intros Hw. eauto.
  - destruct (lookup h (handles a)) as [[s|t|u]|] eqn:L; try nohandle I.
    unfold udp_close. change (u_socket u) with (handle_socket (HUdp u)).
    apply (close_case a h (HUdp u) (udp_socket_close u) RUdpUnit); auto.
    apply pt_udp_socket_close.
  - cbn [ptree]. split; [now apply pool_remove|].
    split; [discriminate|]. split; [cbn; tauto|]. reflexivity.
  - cbn [ptree]. unfold activate, deactivate. cbn [inactive_state]. rewrite app_eta. nohandle I.
  - eapply ptree_mono with (B := cblk); [intros ? ? Hb; exact Hb|intros w Hw; exact Hw|intros ? Hx; exact Hx|].
    eapply ptree_map; [apply pt_run_devop|]. intros x _. nohandle I.
  - destruct (lookup h (handles a)) as [[s|t|u]|] eqn:L; try nohandle I.
    eapply pt_sock; eauto; [reflexivity|].
    eapply ptree_map; [apply (pt_udp_set_port u)|]. intros x Hx.
    split; [eapply pool_put; eauto|].
    split; [intros _; cbn [fst snd put handles gained given_back]; now rewrite update_length|].
    split; [cbn; tauto|]. cbn. reflexivity.
  - destruct (lookup h (handles a)) as [[s|t|u]|] eqn:L; try nohandle I.
    eapply pt_sock; eauto; [reflexivity|].
    eapply ptree_map; [apply (pt_run_sockop s)|]. intros x _. nohandle I.
Qed.

(** ** Whole programs *)
Lemma pool_inv_new h : pool_inv (app_new h).
Proof.
  constructor; cbn -[N.testbit]; try (intros ? ? []); try constructor.
  intros j Hj. apply N.bits_above_log2. cbn. lia.
Qed.

Fixpoint sum (l : list nat) : nat := match l with [] => 0 | x :: l' => x + sum l' end.

Definition all_blocks (blk addr : N) : Prop := True.

Lemma exec_step_post fuel a o tr r :
  pool_inv a -> exec (step fuel a o) tr (Done r) -> step_post a o r.
Proof. intros I X. exact (proj2 (ptree_exec _ _ _ _ _ _ (pt_step fuel a o I) X)). Qed.

Lemma exec_run_ops_cons fuel a o ops tr x :
  exec (run_ops fuel a (o :: ops)) tr (Done x) ->
  exists tr1 tr2 r rs, tr = tr1 ++ tr2 /\ exec (step fuel a o) tr1 (Done r) /\
    exec (run_ops fuel (fst r) ops) tr2 (Done rs) /\ x = (fst rs, snd r :: snd rs).
Proof.
  cbn [run_ops]. intros X. apply exec_bind_done in X as (tr1 & r & tr2 & -> & X1 & X2).
  apply exec_bind_done in X2 as (tr3 & rs & tr4 & -> & X3 & X4).
  apply exec_Ret_inv in X4 as [-> [E|E]]; [|discriminate]. injection E as ->.
  exists tr1, (tr3 ++ []), r, rs. rewrite app_nil_r. auto.
Qed.

Lemma exec_run_ops_inv fuel ops : forall a tr a' outs,
  pool_inv a -> exec (run_ops fuel a ops) tr (Done (a', outs)) ->
  pool_inv a' /\ length outs = length ops /\
  (forallb (fun oo => negb (leaks oo)) (combine ops outs) = true ->
   length (handles a') + sum (map given_back (combine ops outs))
   = length (handles a) + sum (map gained outs))%nat /\
  (free_count (ds_sockets (dev a')) + sum (map gained outs)
   = free_count (ds_sockets (dev a)) + sum (map given_back (combine ops outs)))%nat.
Proof.
  induction ops as [|o ops IH]; intros a tr a' outs I X.
  - cbn in X. apply exec_Ret_inv in X as [_ [[= -> ->]|E]]; [|discriminate]. cbn. auto.
  - apply exec_run_ops_cons in X as (tr1 & tr2 & r & rs & -> & X1 & X2 & [= -> ->]).
    apply exec_step_post in X1; [|exact I]. destruct X1 as (I1 & L1 & _ & C1). destruct rs as [a2 outs2].
    destruct (IH _ _ _ _ I1 X2) as (I2 & L & L2 & C2). cbn [fst snd] in *.
    split; [exact I2|]. split; [cbn; lia|]. split; [|cbn [map combine sum]; lia].
    cbn [map combine sum forallb]. intros F. apply andb_true_iff in F as [F1 F2].
    apply negb_true_iff in F1. specialize (L1 F1). specialize (L2 F2). lia.
Qed.

(** a program running forever or cut off: its accesses are those of some call it reached *)
Definition reachable (fuel : nat) (a : app) : Prop :=
  exists h ops tr outs, exec (run_ops fuel (app_new h) ops) tr (Done (a, outs)).

Lemma reachable_inv fuel a : reachable fuel a -> pool_inv a.
Proof.
  intros (h & ops & tr & outs & X). eapply exec_run_ops_inv; [|exact X]. apply pool_inv_new.
Qed.

Lemma idx_lt8 a : pool_inv a -> forall i, In i (idxs (handles a)) -> i < 8.
Proof.
  intros I i Hi. apply in_map_iff in Hi as ([h x] & <- & Hin).
  destruct (pi_socket _ I _ _ Hin) as (j & Hj & E & _). unfold hidx. cbn. now rewrite E.
Qed.
Lemma live_le8 a : pool_inv a -> (length (handles a) <= 8)%nat.
Proof.
  intros I. replace (length (handles a)) with (length (idxs (handles a))) by apply map_length.
  apply (NoDup_incl_length (pi_idx _ I) (l' := all8)). intros i Hi. apply in_all8. eapply idx_lt8; eauto.
Qed.

(** the hardware sockets not in the pool *)
Definition taken (s : N) : list N := filter (fun i => negb (N.testbit s i)) all8.
Lemma taken_count s : (length (taken s) + free_count s = 8)%nat.
Proof.
  unfold taken, free_count. change 8%nat with (length all8). generalize all8 as l.
  induction l as [|x l IH]; cbn; [reflexivity|]. destruct (N.testbit s x); cbn; lia.
Qed.
Lemma in_taken s i : In i (taken s) <-> i < 8 /\ N.testbit s i = false.
Proof. unfold taken. rewrite filter_In, in_all8, negb_true_iff. tauto. Qed.

Lemma exact_pool a :
  pool_inv a -> (length (handles a) + free_count (ds_sockets (dev a)) = 8)%nat ->
  forall i, i < 8 -> (N.testbit (ds_sockets (dev a)) i = false <-> In i (idxs (handles a))).
Proof.
  intros I C i Hi. split.
  - intros Hb.
    assert (Inc : incl (taken (ds_sockets (dev a))) (idxs (handles a))).
    { apply NoDup_length_incl.
      - apply I.
      - pose proof (taken_count (ds_sockets (dev a))). unfold idxs. rewrite map_length. lia.
      - intros j Hj. apply in_taken. apply in_map_iff in Hj as ([h x] & <- & Hin).
        destruct (pi_socket _ I _ _ Hin) as (k & Hk & E & B). unfold hidx. cbn. now rewrite E. }
    apply Inc. now apply in_taken.
  - intros Hin. apply in_map_iff in Hin as ([h x] & <- & Hin).
    destruct (pi_socket _ I _ _ Hin) as (k & Hk & E & B). unfold hidx. cbn. now rewrite E.
Qed.

Lemma run_ops_app fuel ops1 : forall a ops2 tr o,
  exec (run_ops fuel a (ops1 ++ ops2)) tr (Done o) ->
  exists tr1 a1 o1 tr2 o2, tr = tr1 ++ tr2 /\ exec (run_ops fuel a ops1) tr1 (Done (a1, o1)) /\
    exec (run_ops fuel a1 ops2) tr2 (Done (fst o, o2)) /\ snd o = o1 ++ o2.
Proof.
  induction ops1 as [|x ops1 IH]; intros a ops2 tr o X.
  - exists [], a, [], tr, (snd o). destruct o. repeat split; auto. constructor.
  - cbn [List.app] in X. apply exec_run_ops_cons in X as (tr1 & tr2 & r & rs & -> & X1 & X2 & ->).
    apply IH in X2 as (tr3 & a1 & o1 & tr4 & o2 & -> & X2 & X3 & E). cbn [fst snd].
    exists (tr1 ++ tr3), a1, (snd r :: o1), tr4, o2. rewrite app_assoc. repeat split; auto.
    + cbn [run_ops]. eapply exec_bind_intro; [exact X1|]. rewrite <- (app_nil_r tr3).
      eapply exec_bind_intro; [exact X2|]. cbn. constructor.
    + cbn. now rewrite E.
Qed.
Lemma run_ops_app_intro fuel ops1 : forall a ops2 tr1 a1 o1 tr2 a2 o2,
  exec (run_ops fuel a ops1) tr1 (Done (a1, o1)) ->
  exec (run_ops fuel a1 ops2) tr2 (Done (a2, o2)) ->
  exec (run_ops fuel a (ops1 ++ ops2)) (tr1 ++ tr2) (Done (a2, o1 ++ o2)).
Proof.
  induction ops1 as [|x ops1 IH]; intros a ops2 tr1 a1 o1 tr2 a2 o2 X Y.
  - cbn in X. apply exec_Ret_inv in X as [-> [[= -> ->]|E]]; [exact Y|discriminate].
  - apply exec_run_ops_cons in X as (tr3 & tr4 & r & rs & -> & X1 & X2 & [= -> ->]).
    destruct rs as [a3 o3]. cbn [fst snd] in *.
    pose proof (IH _ _ _ _ _ _ _ _ X2 Y) as Z. cbn [List.app run_ops]. rewrite <- app_assoc.
    eapply exec_bind_intro; [exact X1|]. rewrite <- (app_nil_r (tr4 ++ tr2)).
    eapply exec_bind_intro; [exact Z|]. cbn. constructor.
Qed.

Lemma free_all a : pool_inv a -> (free_count (ds_sockets (dev a)) = 8%nat <-> ds_sockets (dev a) = 255).
Proof.
  intros I. split.
  - intros C. assert (T : taken (ds_sockets (dev a)) = []).
    { pose proof (taken_count (ds_sockets (dev a))). destruct (taken _); [auto|cbn in *; lia]. }
    apply N.bits_inj. intros j. destruct (N.lt_ge_cases j 8) as [Hj|Hj].
    + assert (N.testbit (ds_sockets (dev a)) j = true) as ->.
      { destruct (N.testbit (ds_sockets (dev a)) j) eqn:E; [reflexivity|].
        assert (In j (taken (ds_sockets (dev a)))) by (now apply in_taken). rewrite T in H. destruct H. }
      assert (j = 0 \/ j = 1 \/ j = 2 \/ j = 3 \/ j = 4 \/ j = 5 \/ j = 6 \/ j = 7) as Hc by lia.
      decompose [or] Hc; subst; reflexivity.
    + rewrite (pi_high _ I j Hj). symmetry. apply N.bits_above_log2. cbn. lia.
  - intros ->. reflexivity.
Qed.
