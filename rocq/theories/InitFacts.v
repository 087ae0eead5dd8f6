(** The chip after Host::refresh and the initialize functions. *)
From Verif Require Export ComFacts CallFacts.
From Verif Require Import Datasheet.

(** a write to common registers, whether or not the bus call fails *)
Lemma wp_com_write_any {A} e a d (k : res unit berr -> prog A) Q s :
  0 < a -> a + len d <= 65536 -> (PHYCFGR < a \/ a + len d <= PHYCFGR) -> (VERSIONR < a \/ a + len d <= VERSIONR) ->
  (forall s' r d', (r = Ok tt -> d' = d) -> (exists j, d' = firstn j d) ->
     com_over a d' (s_chip s') (alone e (s_chip s) (s_tick s) (length d')) -> s_tick s' = (s_tick s + length d')%nat ->
     wp e (k r) Q s') ->
  wp e (BusWrite 0 a d k) Q s.
Proof.
  intros H0 H1 H2 H3 H. unfold wp. cbn [run]. unfold bus_write. destruct (fails e (s_call s)) as [[q err]|].
  - pose proof (len_firstn q d) as L. destruct (write_com e a (firstn q d) s H0) as [W1 W2]; try lia.
    apply (H (end_call (write_bytes e 0 a (firstn q d) s)) (Err err) (firstn q d)); [discriminate|eauto|exact W1|exact W2].
  - destruct (write_com e a d s H0 H1 H2 H3) as [W1 W2].
    apply (H (end_call (write_bytes e 0 a d s)) (Ok tt) d); [auto|exists (length d); now rewrite firstn_all|exact W1|exact W2].
Qed.

(** equal but for common addresses lo..hi-1, which are below the PHY register *)
Definition but (lo hi : N) (c c' : chip) : Prop :=
  (forall x, x < lo \/ hi <= x -> com c x = com c' x) /\ (forall i, socks c i = socks c' i).
Lemma but_refl lo hi c : but lo hi c c.
Proof. split; auto. Qed.
Lemma but_trans lo hi a b c : but lo hi a b -> but lo hi b c -> but lo hi a c.
Proof. intros (A1 & A2) (B1 & B2). split; intros x; [intros Hx; rewrite A1, B1; auto|now rewrite A2, B2]. Qed.
Lemma but_nsteps lo hi l : hi <= PHYCFGR -> forall c c', but lo hi c c' -> but lo hi (nsteps c l) (nsteps c' l).
Proof.
  intros Hp. unfold nsteps. induction l as [|ev l IH]; intros c c' H; cbn [fold_left]; [exact H|]. apply IH.
  destruct H as [H1 H2]. unfold nstep. destruct (ev_sock ev) as [n|].
  - split; [exact H1|]. intros i. unfold set_sock. cbn [socks]. destruct (i =? n); [now rewrite H2|apply H2].
  - destruct ev; try (split; assumption). split; [|exact H2]. intros x Hx. cbn [com set_com]. unfold upd.
    rewrite (H1 PHYCFGR) by (right; exact Hp). destruct (x =? PHYCFGR); [reflexivity|now apply H1].
Qed.
Lemma but_alone lo hi e : hi <= PHYCFGR -> forall n c c' t, but lo hi c c' -> but lo hi (alone e c t n) (alone e c' t n).
Proof. intros Hp. induction n as [|n IH]; intros c c' t H; cbn [alone]; [exact H|]. apply IH. now apply but_nsteps. Qed.
Definition later (lo hi : N) (e : env) (s s' : sys) : Prop :=
  exists n, s_tick s' = (s_tick s + n)%nat /\ but lo hi (s_chip s') (alone e (s_chip s) (s_tick s) n).
Lemma later_refl lo hi e s : later lo hi e s s.
Proof. exists 0%nat. split; [lia|apply but_refl]. Qed.
Lemma later_trans lo hi e a b c : hi <= PHYCFGR -> later lo hi e a b -> later lo hi e b c -> later lo hi e a c.
Proof.
  intros Hp (n & T1 & A1) (m & T2 & A2). exists (n + m)%nat. split; [lia|]. rewrite alone_add.
  eapply but_trans; [exact A2|]. rewrite T1. now apply but_alone.
Qed.
Lemma over_later lo hi e a d s s' n : lo <= a -> a + len d <= hi -> com_over a d (s_chip s') (alone e (s_chip s) (s_tick s) n) ->
  s_tick s' = (s_tick s + n)%nat -> later lo hi e s s'.
Proof.
  intros H1 H2 (O1 & O2) T. exists n. split; [exact T|]. split; [|exact O2]. intros x Hx. rewrite O1.
  destruct (N.leb_spec a x), (N.ltb_spec x (a + len d)); try reflexivity. lia.
Qed.

(** fields of the common block *)
Definition fld (c : chip) (a : N) (n : nat) : list byte := com_list (com c) a n.
Lemma com_list_nth d : forall a m, (forall x, a <= x < a + len d -> m x = nth (N.to_nat (x - a)) d x00) -> com_list m a (length d) = d.
Proof.
  induction d as [|b d IH]; intros a m H; cbn [com_list length]; [reflexivity|]. rewrite len_cons in H. f_equal.
  - rewrite H by lia. now rewrite N.sub_diag.
  - apply IH. intros x Hx. rewrite H by lia. replace (N.to_nat (x - a)) with (S (N.to_nat (x - (a + 1)))) by lia. reflexivity.
Qed.
Lemma fld_over e a d s s' n : com_over a d (s_chip s') (alone e (s_chip s) (s_tick s) n) -> fld (s_chip s') a (length d) = d.
Proof.
  intros (O & _). apply com_list_nth. intros x Hx. rewrite O. destruct (N.leb_spec a x), (N.ltb_spec x (a + len d)); try lia. reflexivity.
Qed.
Lemma fld_apart e a d s s' n a' n' : com_over a d (s_chip s') (alone e (s_chip s) (s_tick s) n) ->
  (a' + N.of_nat n' <= a \/ a + len d <= a') -> a' + N.of_nat n' <= PHYCFGR -> fld (s_chip s') a' n' = fld (s_chip s) a' n'.
Proof.
  intros (O & _) H1 H2. apply com_list_ext. intros x Hx. rewrite O.
  destruct (N.leb_spec a x), (N.ltb_spec x (a + len d)); cbn [andb]; try (apply com_alone; lia). lia.
Qed.

Lemma ipv4_eqb_refl x : ipv4_eqb x x = true.
Proof. apply bytes_eqb_refl. Qed.
Lemma ipv4_eqb_eq x y : ipv4_eqb x y = true -> x = y.
Proof. unfold ipv4_eqb. intros H. apply bytes_eqb_eq in H. destruct x, y. cbn in H. injection H as -> -> -> ->. reflexivity. Qed.
Lemma mac_eqb_refl x : mac_eqb x x = true.
Proof. apply bytes_eqb_refl. Qed.
Lemma mac_eqb_eq x y : mac_eqb x y = true -> x = y.
Proof. unfold mac_eqb. intros H. apply bytes_eqb_eq in H. destruct x, y. cbn in H. injection H as -> -> -> -> -> ->. reflexivity. Qed.

Section Refresh.
  Context (e : env) (want : HostConfig).
  (** every setting that the driver takes to be in place is in place *)
  Definition inplace (cur : HostConfig) (c : chip) : Prop :=
    (hc_gateway cur = hc_gateway want -> fld c GAR 4 = octets (hc_gateway want)) /\
    (hc_subnet cur = hc_subnet want -> fld c SUBR 4 = octets (hc_subnet want)) /\
    (hc_mac cur = hc_mac want -> fld c SHAR 6 = mac_octets (hc_mac want)) /\
    (hc_ip cur = hc_ip want -> fld c SIPR 4 = octets (hc_ip want)).
  Definition rpost (s0 : sys) (o : outcome (HostConfig * res unit berr)) (s : sys) : Prop :=
    later GAR (SIPR + 4) e s0 s /\ exists cur r, o = Done (cur, r) /\ inplace cur (s_chip s) /\ (r = Ok tt -> cur = want).
  Lemma wp_write_if (ch : bool) a d cur cur' k s0 s :
    GAR <= a -> a + len d <= SIPR + 4 -> later GAR (SIPR + 4) e s0 s -> inplace cur (s_chip s) ->
    (ch = true -> forall s' d', (exists j, d' = firstn j d) -> (forall a' n', (a' + N.of_nat n' <= a \/ a + len d <= a') -> a' + N.of_nat n' <= PHYCFGR ->
       fld (s_chip s') a' n' = fld (s_chip s) a' n') -> inplace cur (s_chip s') /\ (fld (s_chip s') a (length d) = d -> inplace cur' (s_chip s'))) ->
    (forall s', later GAR (SIPR + 4) e s0 s' -> (ch = true /\ inplace cur' (s_chip s') -> wp e (k cur') (rpost s0) s') /\
       (ch = false /\ inplace cur (s_chip s') -> wp e (k cur) (rpost s0) s')) ->
    wp e (write_if ch a d cur cur' k) (rpost s0) s.
  Proof.
    intros H1 H2 L I H K. unfold write_if. destruct ch; [|now apply (K s L)].
    unfold try_, write_frame. cbn [bind]. change COMMON with 0. apply wp_com_write_any; try (unfold GAR, SIPR, PHYCFGR, VERSIONR in *; lia).
    intros s' r d' Hr Hd O T. cbn [bind].
    assert (Ld : len d' <= len d) by (destruct Hd as (j & ->); apply len_firstn).
    assert (L' : later GAR (SIPR + 4) e s0 s').
    { eapply later_trans; [unfold SIPR, PHYCFGR; lia|exact L|]. eapply (over_later _ _ _ a d'); [exact H1|lia|exact O|exact T]. }
    destruct (H eq_refl s' d' Hd) as [J1 J2].
    { intros a' n' Ha Hb. apply (fld_apart _ _ _ _ _ _ _ _ O); lia. }
    destruct r as [[]|er].
    - rewrite Hr in O by reflexivity. apply (K s' L'). split; [reflexivity|]. apply J2. eapply fld_over. exact O.
    - apply wp_ret. split; [exact L'|]. exists cur, (Err er). split; [reflexivity|]. split; [exact J1|discriminate].
  Qed.
  Lemma octets_len x : len (octets x) = 4 /\ length (octets x) = 4%nat.
  Proof. destruct x; split; reflexivity. Qed.
  Lemma mac_octets_len x : len (mac_octets x) = 6 /\ length (mac_octets x) = 6%nat.
  Proof. destruct x; split; reflexivity. Qed.
  Lemma wp_write_settings cur s : inplace cur (s_chip s) -> wp e (write_settings cur want) (rpost s) s.
  Proof.
    intros I. unfold write_settings.
    assert (B : forall x y, negb (ipv4_eqb x y) = true -> x <> y) by (intros x y H ->; rewrite ipv4_eqb_refl in H; discriminate).
    assert (B' : forall x y, negb (ipv4_eqb x y) = false -> y = x) by (intros x y H; symmetry; apply ipv4_eqb_eq; now destruct (ipv4_eqb x y)).
    assert (M : forall x y, negb (mac_eqb x y) = true -> x <> y) by (intros x y H ->; rewrite mac_eqb_refl in H; discriminate).
    assert (M' : forall x y, negb (mac_eqb x y) = false -> y = x) by (intros x y H; symmetry; apply mac_eqb_eq; now destruct (mac_eqb x y)).
    change c_GATEWAY with GAR. change c_SUBNET_MASK with SUBR. change c_MAC with SHAR. change c_IP with SIPR.
    assert (St : forall cur1 s1, later GAR (SIPR + 4) e s s1 -> inplace cur1 (s_chip s1) -> hc_gateway cur1 = hc_gateway want ->
      wp e (write_if (negb (ipv4_eqb (hc_subnet want) (hc_subnet cur1))) SUBR (octets (hc_subnet want)) cur1 (hc_set_subnet cur1 (hc_subnet want))
       (fun cur2 => write_if (negb (mac_eqb (hc_mac want) (hc_mac cur2))) SHAR (mac_octets (hc_mac want)) cur2 (hc_set_mac cur2 (hc_mac want))
       (fun cur3 => write_if (negb (ipv4_eqb (hc_ip want) (hc_ip cur3))) SIPR (octets (hc_ip want)) cur3 (hc_set_ip cur3 (hc_ip want))
       (fun cur4 => Ret (cur4, Ok tt))))) (rpost s) s1).
    2:{ destruct (octets_len (hc_gateway want)) as [G1 G2].
        apply wp_write_if; rewrite ?G1, ?G2; try (unfold GAR, SIPR; lia); [apply later_refl|exact I| |].
        - intros Hc s' d' Hd F. destruct I as (I1 & I2 & I3 & I4). unfold inplace. cbn [hc_gateway hc_subnet hc_mac hc_ip hc_set_gateway].
          rewrite !(F SUBR), !(F SHAR), !(F SIPR) by (cbn; unfold GAR, SUBR, SHAR, SIPR, PHYCFGR; lia).
          split; [|tauto]. split; [intros E; exfalso; now apply (B _ _ Hc)|tauto].
        - intros s' L. split; intros (Hc & I'); (apply St; [exact L|exact I'|]); [reflexivity|now apply B']. }
    intros cur1 s1 L1 I1 E1.
    destruct (octets_len (hc_subnet want)) as [G1 G2].
    assert (St2 : forall cur2 s2, later GAR (SIPR + 4) e s s2 -> inplace cur2 (s_chip s2) -> hc_gateway cur2 = hc_gateway want -> hc_subnet cur2 = hc_subnet want ->
      wp e (write_if (negb (mac_eqb (hc_mac want) (hc_mac cur2))) SHAR (mac_octets (hc_mac want)) cur2 (hc_set_mac cur2 (hc_mac want))
       (fun cur3 => write_if (negb (ipv4_eqb (hc_ip want) (hc_ip cur3))) SIPR (octets (hc_ip want)) cur3 (hc_set_ip cur3 (hc_ip want))
       (fun cur4 => Ret (cur4, Ok tt)))) (rpost s) s2).
    2:{ apply wp_write_if; rewrite ?G1, ?G2; try (unfold GAR, SUBR, SIPR; lia); [exact L1|exact I1| |].
        - intros Hc s' d' Hd F. destruct I1 as (J1 & J2 & J3 & J4). unfold inplace. cbn [hc_gateway hc_subnet hc_mac hc_ip hc_set_subnet].
          rewrite !(F GAR), !(F SHAR), !(F SIPR) by (cbn; unfold GAR, SUBR, SHAR, SIPR, PHYCFGR; lia).
          split; [|tauto]. split; [exact J1|]. split; [intros E; exfalso; now apply (B _ _ Hc)|tauto].
        - intros s' L. split; intros (Hc & I'); (apply St2; [exact L|exact I'|exact E1|]); [reflexivity|now apply B']. }
    clear I I1 E1 L1 s1 cur1 G1 G2. intros cur2 s2 L2 I2 E1 E2.
    destruct (mac_octets_len (hc_mac want)) as [G1 G2].
    assert (St3 : forall cur3 s3, later GAR (SIPR + 4) e s s3 -> inplace cur3 (s_chip s3) ->
       hc_gateway cur3 = hc_gateway want -> hc_subnet cur3 = hc_subnet want -> hc_mac cur3 = hc_mac want ->
      wp e (write_if (negb (ipv4_eqb (hc_ip want) (hc_ip cur3))) SIPR (octets (hc_ip want)) cur3 (hc_set_ip cur3 (hc_ip want))
       (fun cur4 => Ret (cur4, Ok tt))) (rpost s) s3).
    2:{ apply wp_write_if; rewrite ?G1, ?G2; try (unfold GAR, SHAR, SIPR; lia); [exact L2|exact I2| |].
        - intros Hc s' d' Hd F. destruct I2 as (J1 & J2 & J3 & J4). unfold inplace. cbn [hc_gateway hc_subnet hc_mac hc_ip hc_set_mac].
          rewrite !(F GAR), !(F SUBR), !(F SIPR) by (cbn; unfold GAR, SUBR, SHAR, SIPR, PHYCFGR; lia).
          split; [|tauto]. split; [exact J1|]. split; [exact J2|]. split; [intros E; exfalso; now apply (M _ _ Hc)|tauto].
        - intros s' L. split; intros (Hc & I'); (apply St3; [exact L|exact I'|exact E1|exact E2|]); [reflexivity|now apply M']. }
    clear I2 E1 E2 L2 s2 cur2 G1 G2. intros cur3 s3 L3 I3 E1 E2 E3.
    destruct (octets_len (hc_ip want)) as [G1 G2].
    apply wp_write_if; rewrite ?G1, ?G2; try (unfold GAR, SIPR; lia); [exact L3|exact I3| |].
    - intros Hc s' d' Hd F. destruct I3 as (J1 & J2 & J3 & J4). unfold inplace. cbn [hc_gateway hc_subnet hc_mac hc_ip hc_set_ip].
      rewrite !(F GAR), !(F SUBR), !(F SHAR) by (cbn; unfold GAR, SUBR, SHAR, SIPR, PHYCFGR; lia).
      split; [|tauto]. split; [exact J1|]. split; [exact J2|]. split; [exact J3|]. intros E; exfalso; now apply (B _ _ Hc).
    - intros s' L. split; intros (Hc & I'); apply wp_ret; (split; [exact L|]); eexists _, _; (split; [reflexivity|]); (split; [exact I'|]); intros _.
      + destruct want, cur3. cbn in *. now subst.
      + apply B' in Hc. destruct want, cur3. cbn in *. now subst.
  Qed.

  (** the settings of [want] are on the chip *)
  Definition configured (c : chip) : Prop :=
    fld c GAR 4 = octets (hc_gateway want) /\ fld c SUBR 4 = octets (hc_subnet want) /\
    fld c SHAR 6 = mac_octets (hc_mac want) /\ fld c SIPR 4 = octets (hc_ip want).
  Lemma inplace_all c : inplace want c -> configured c.
  Proof. intros (H1 & H2 & H3 & H4). split; [auto|]. split; [auto|]. split; auto. Qed.
  Definition host_inv (h : host) (c : chip) : Prop :=
    match h with
    | Manual b w cur => w = want /\ inplace cur c /\ (b = true -> cur = want)
    | Dhcp => False
    end.
  Lemma wp_refresh h s : host_inv h (s_chip s) ->
    wp e (refresh h) (fun o s' => later GAR (SIPR + 4) e s s' /\ exists h' r, o = Done (h', r) /\ host_inv h' (s_chip s') /\
      (r = Ok tt -> exists cur, h' = Manual true want cur)) s.
  Proof.
    intros H. destruct h as [b w cur|]; [|destruct H]. destruct H as (-> & I & Hb). cbn [refresh]. destruct b.
    - apply wp_ret. split; [apply later_refl|]. eexists _, _. split; [reflexivity|]. split; [split; [reflexivity|split; [exact I|exact Hb]]|]. eauto.
    - apply wp_bind. eapply wp_mono; [|apply (wp_write_settings cur s I)]. cbv beta.
      intros o s' (L & cur' & r & -> & I' & Hr). apply wp_ret. split; [exact L|]. cbn [fst snd]. eexists _, _. split; [reflexivity|].
      destruct r as [[]|er].
      + split; [split; [reflexivity|split; [exact I'|auto]]|]. eauto.
      + split; [split; [reflexivity|split; [exact I'|discriminate]]|discriminate].
  Qed.
  Lemma wp_refreshes : forall n h s, host_inv h (s_chip s) ->
    wp e (refreshes n h) (fun o s' => later GAR (SIPR + 4) e s s' /\ exists h' rs, o = Done (h', rs) /\ host_inv h' (s_chip s') /\
      (forall cur, h = Manual true want cur -> h' = h) /\ (In (Ok tt) rs -> exists cur, h' = Manual true want cur)) s.
  Proof.
    induction n as [|n IH]; intros h s H; cbn [refreshes].
    - apply wp_ret. split; [apply later_refl|]. eexists _, _. split; [reflexivity|]. split; [exact H|]. split; [auto|intros []].
    - apply wp_bind. eapply wp_mono; [|apply (wp_and _ _ _ _ _ (wp_refresh h s H) (eq_refl : wp e (refresh h) (fun o s' => o = fst (run e (refresh h) s)) s))].
      cbv beta. intros o s1 ((L1 & h1 & r & -> & H1 & Hr) & E). apply wp_bind. cbn [fst snd].
      eapply wp_mono; [|apply (IH h1 s1 H1)]. cbv beta. intros o' s2 (L2 & h2 & rs & -> & H2 & K & Hrs). apply wp_ret. cbn [fst snd].
      split; [eapply later_trans; [unfold SIPR, PHYCFGR; lia|exact L1|exact L2]|]. eexists _, _. split; [reflexivity|]. split; [exact H2|].
      split.
      + intros cur ->. cbn [refresh run fst] in E. injection E as -> _. exact (K cur eq_refl).
      + intros [->|HI]; [|auto]. destruct (Hr eq_refl) as (cur & ->). exists cur. now apply (K cur).
  Qed.
End Refresh.

(** ** Reset and the initialize functions *)
Lemma run_try_ok {A E R} e (p : prog (res A E)) (h : E -> R) (k : A -> prog R) s v s' :
  run e (try_ p h k) s = (Done v, s') ->
  (exists a s1, run e p s = (Done (Ok a), s1) /\ run e (k a) s1 = (Done v, s')) \/ (exists x, run e p s = (Done (Err x), s') /\ v = h x).
Proof.
  unfold try_. intros R0. apply run_bind_done in R0 as ([a|x] & s1 & R1 & R2); [left; eauto|right].
  cbn [run] in R2. injection R2 as <- <-. eauto.
Qed.
Lemma run_mr_ok e v s s' : run e (write_frame COMMON c_MODE [v]) s = (Done (Ok tt), s') ->
  s_chip s' = wbyte (alone e (s_chip s) (s_tick s) 1) 0 MR v /\ s_tick s' = (s_tick s + 1)%nat.
Proof.
  unfold write_frame. cbn [run]. unfold bus_write. destruct (fails e (s_call s)) as [[q err]|]; intros [=]; subst.
  cbn [s_chip s_tick end_call write_bytes on_chip tick]. split; [reflexivity|lia].
Qed.
Lemma reset_still x : forall ev, sock_step (sock_reset x) ev = sock_reset x.
Proof.
  intros []; try reflexivity. unfold sock_step. change (sub16 (tx_rd (sock_reset x)) (tx_ack (sock_reset x))) with 0.
  rewrite N.min_0_r. reflexivity.
Qed.
Definition dormant (x : sock) : Prop := exists y, x = sock_reset y.
Lemma dormant_nsteps l : forall c, (forall i, dormant (socks c i)) -> forall i, socks (nsteps c l) i = socks c i.
Proof.
  unfold nsteps. induction l as [|ev l IH]; intros c H i; cbn [fold_left]; [reflexivity|].
  assert (E : forall j, socks (nstep c ev) j = socks c j).
  { intros j. unfold nstep. destruct (ev_sock ev) as [n|]; [|destruct ev; reflexivity]. unfold set_sock. cbn [socks].
    destruct (N.eqb_spec j n) as [->|]; [|reflexivity]. destruct (H n) as (y & ->). apply reset_still. }
  rewrite IH; [apply E|]. intros j. rewrite E. apply H.
Qed.
Lemma dormant_alone e : forall n c t, (forall i, dormant (socks c i)) -> forall i, socks (alone e c t n) i = socks c i.
Proof.
  induction n as [|n IH]; intros c t H i; cbn [alone]; [reflexivity|]. rewrite IH; [now apply dormant_nsteps|].
  intros j. rewrite dormant_nsteps by exact H. apply H.
Qed.
Lemma dormant_later lo hi e s s' : later lo hi e s s' -> (forall i, dormant (socks (s_chip s) i)) ->
  forall i, socks (s_chip s') i = socks (s_chip s) i.
Proof. intros (n & _ & _ & H) D i. rewrite H. now apply dormant_alone. Qed.

(** right after the reset and the mode write: everything else at its reset value *)
Lemma run_init e assertion h m s d s' : run e (initialize_with_host assertion h m) s = (Done (Ok d), s') ->
  exists s1 c h', com (s_chip s1) MR = u8 (mode_to_u8 m) /\ (forall x, x <> MR -> x <> PHYCFGR -> com (s_chip s1) x = com_reset x) /\
    (exists n, c = alone e (s_chip s) (s_tick s) n) /\ (forall i, socks (s_chip s1) i = sock_reset (socks c i)) /\
    run e (refresh h) s1 = (Done (h', Ok tt), s') /\ d = ds_new h'.
Proof.
  intros R0.
  assert (Pre : exists s0 n, s_chip s0 = alone e (s_chip s) (s_tick s) n /\ s_tick s0 = (s_tick s + n)%nat /\
    run e (initialize_with_host false h m) s0 = (Done (Ok d), s')).
  { destruct assertion; [|exists s, 0%nat; split; [reflexivity|split; [lia|exact R0]]].
    unfold initialize_with_host in R0. apply run_try_ok in R0 as [(u & s0 & R1 & R2)|(x & _ & [=])].
    unfold assert_chip_version, dev_version in R1. apply run_try_ok in R1 as [(v & s2 & R3 & R4)|(x & _ & [=])].
    apply run_try_ok in R3 as [(o & s3 & R5 & R6)|(x & _ & [=])]. cbn [run] in R6. injection R6 as <- <-.
    assert (s0 = s3) as -> by (destruct (negb _); cbn [run] in R4; injection R4; congruence).
    exists s3, 1%nat. unfold read_reg in R5. cbn [bind run] in R5. unfold bus_read in R5.
    destruct (fails e (s_call s)) as [[q err]|].
    - destruct (read_bytes _ _ _ _ _); cbn [run] in R5; discriminate R5.
    - cbn in R5. injection R5 as _ <-. split; [reflexivity|]. split; [cbn [s_tick end_call tick]; lia|exact R2]. }
  destruct Pre as (s0 & n0 & C0 & T0 & R). clear R0. unfold initialize_with_host in R.
  apply run_try_ok in R as [([] & s1 & R1 & R)|(x & _ & [=])]. apply run_try_ok in R as [([] & s2 & R2 & R)|(x & _ & [=])].
  apply run_bind_done in R as ([h' r] & s3 & R3 & R). cbn [fst snd] in R. destruct r as [[]|er]; cbn [run] in R; [|discriminate R]. injection R as <- <-.
  apply run_mr_ok in R1 as (C1 & T1). apply run_mr_ok in R2 as (C2 & T2).
  set (c := alone e (s_chip s0) (s_tick s0) 1) in *.
  assert (W1 : s_chip s1 = chip_reset c) by (rewrite C1; reflexivity).
  assert (W2 : s_chip s2 = set_com (alone e (s_chip s1) (s_tick s1) 1) (upd (com (alone e (s_chip s1) (s_tick s1) 1)) MR (u8 (mode_to_u8 m)))).
  { rewrite C2. unfold wbyte. rewrite !N.eqb_refl, mode_no_reset. reflexivity. }
  exists s2, c, h'. rewrite W2. cbn [com set_com socks]. split; [unfold upd; now rewrite N.eqb_refl|]. split; [|split; [|split; [|split]]].
  - intros x Hm Hp. unfold upd. destruct (N.eqb_spec x MR); [contradiction|]. rewrite com_alone by exact Hp. rewrite W1. reflexivity.
  - exists (n0 + 1)%nat. unfold c. rewrite C0, T0. now rewrite alone_add.
  - intros i. rewrite dormant_alone; rewrite W1; [reflexivity|]. intros j. eexists. reflexivity.
  - exact R3.
  - reflexivity.
Qed.

(** what later getters answer *)
Lemma run_getter {A} e a n (f : list byte -> A) s o s' : a + N.of_nat n <= PHYCFGR ->
  run e (try o <- read_reg COMMON a n else Err ;; Ret (Ok (f o))) s = (Done (Ok o), s') -> o = f (fld (s_chip s) a n).
Proof.
  intros Ha R. apply run_try_ok in R as [(v & s1 & R1 & R)|(x & _ & [=])]. cbn [run] in R. injection R as <- <-.
  unfold read_reg in R1. cbn [bind run] in R1. unfold bus_read in R1. unfold zeros in R1. rewrite repeat_length in R1.
  destruct (fails e (s_call s)) as [[q err]|].
  - destruct (read_bytes _ _ _ _ _); cbn [run bind] in R1; discriminate R1.
  - destruct (read_com e n a s) as (G1 & _); [unfold PHYCFGR in Ha; lia|lia|].
    change COMMON with 0 in R1. destruct (read_bytes e 0 a n s) as [g s2]. cbn [run bind fst snd] in *. injection R1 as <- _. now rewrite G1.
Qed.
