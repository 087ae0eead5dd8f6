(** Where the bytes in the RX memory of a socket come from: the datagrams and frames the network brought. *)
From Verif Require Export UdpWire RawSession RecoverySend Commands.
From Verif Require Import Datasheet.

(** ** What every access and every event keeps, a run keeps *)
Section Keeps.
  Context (e : env) (P : nat -> chip -> Prop).
  Hypothesis Hn : forall c t, P t c -> P (S t) (nsteps c (happens e t)).
  Hypothesis Hw : forall c t b a v, P t c -> P t (wbyte c b a v).
  Definition at_sys (s : sys) : Prop := P (s_tick s) (s_chip s).
  Lemma keeps_read b n : forall a s, at_sys s -> at_sys (snd (read_bytes e b a n s)).
  Proof.
    induction n as [|n IH]; intros a s H; cbn [read_bytes]; [exact H|]. pose proof (IH (next_addr a) (tick e s) (Hn _ _ H)) as K.
    destruct (read_bytes e b (next_addr a) n (tick e s)). exact K.
  Qed.
  Lemma keeps_write b d : forall a s, at_sys s -> at_sys (write_bytes e b a d s).
  Proof. induction d as [|v d IH]; intros a s H; cbn [write_bytes]; [exact H|]. apply IH. unfold at_sys. cbn [on_chip s_chip s_tick tick]. now apply Hw, Hn. Qed.
  Lemma run_keeps {A} (p : prog A) : forall s o s', run e p s = (o, s') -> at_sys s -> at_sys s'.
  Proof.
    induction p as [a|w| |b a d k IH|b a d k IH]; cbn [run]; intros s o s' R H; try (injection R as _ <-; exact H).
    - destruct (bus_read e b a d s) as [r s1] eqn:B. refine (IH _ _ _ _ R _). unfold bus_read in B. destruct (fails e (s_call s)) as [[q er]|].
      + pose proof (keeps_read b (Nat.min q (length d)) a s H) as K. destruct (read_bytes e b a _ s). injection B as _ <-. exact K.
      + pose proof (keeps_read b (length d) a s H) as K. destruct (read_bytes e b a _ s). injection B as _ <-. exact K.
    - destruct (bus_write e b a d s) as [r s1] eqn:B. refine (IH _ _ _ _ R _). unfold bus_write in B. destruct (fails e (s_call s)) as [[q er]|]; injection B as _ <-; exact (keeps_write b _ a s H).
  Qed.
End Keeps.

Lemma run_ticks {A} e (p : prog A) s o s' : run e p s = (o, s') -> (s_tick s <= s_tick s')%nat.
Proof. intros R. refine (run_keeps e (fun t _ => (s_tick s <= t)%nat) _ _ p s o s' R _); unfold at_sys; intros; lia. Qed.

(** ** The datagrams for a socket and the frames among the events *)
Definition dgrams_in (i : N) (evs : list nevent) : list dgram :=
  flat_map (fun ev => match ev with EvDatagram j ip port d => if j =? i then [mkDgram ip port d] else [] | _ => [] end) evs.
Definition frames_in (evs : list nevent) : list (list byte) :=
  flat_map (fun ev => match ev with EvFrame f => [f] | _ => [] end) evs.
(** the events from time [t0] to before time [t] *)
Definition events (e : env) (t0 t : nat) : list nevent := flat_map (happens e) (seq t0 (t - t0)).
Lemma events_S e t0 t : (t0 <= t)%nat -> events e t0 (S t) = events e t0 t ++ happens e t.
Proof.
  intros H. unfold events. replace (S t - t0)%nat with ((t - t0) + 1)%nat by lia. rewrite seq_app, flat_map_app. cbn [seq flat_map].
  replace (t0 + (t - t0))%nat with t by lia. now rewrite app_nil_r.
Qed.
Lemma part_more {A} (ps qs rs : list A) : part ps qs -> part ps (qs ++ rs).
Proof. intros H. rewrite <- (app_nil_r ps). apply part_app; [exact H|]. induction rs; [apply part_nil|now apply part_lose]. Qed.
Lemma part_refl {A} (ps : list A) : part ps ps.
Proof. induction ps; now constructor. Qed.
Lemma part_trans {A} (ps qs rs : list A) : part ps qs -> part qs rs -> part ps rs.
Proof.
  intros H1 H2. revert ps H1. induction H2 as [|a q r H IH|a q r H IH]; intros ps H1; [exact H1| |apply part_lose; auto].
  inversion H1; subst; [apply part_keep|apply part_lose]; auto.
Qed.
Lemma part_in {A} (ps qs : list A) x : part ps qs -> In x ps -> In x qs.
Proof. induction 1; cbn [In]; intuition. Qed.
Lemma part_map {A B} (f : A -> B) ps qs : part ps qs -> part (map f ps) (map f qs).
Proof. induction 1; cbn [map]; now constructor. Qed.
Lemma part_filter {A} (f : A -> bool) ps qs : part ps qs -> part (filter f ps) (filter f qs).
Proof. induction 1 as [|a ps qs H IH|a ps qs H IH]; cbn [filter]; [constructor| |]; destruct (f a); try (now constructor); assumption. Qed.

(** ** The records in the RX memory *)
Section Brought.
  Context (i : N).
  Definition brought (D : list dgram) (F : list (list byte)) (x : sock) : Prop :=
    (sr x = SOCK_UDP -> exists q, rxlog x = records q /\ Forall wf_dgram q /\ part q D) /\
    (sr x = SOCK_MACRAW -> exists q, rxlog x = frames q /\ Forall wf_frame q /\ part q F).

  Lemma brought_same D F x y : rxlog y = rxlog x -> sr y = sr x -> brought D F x -> brought D F y.
  Proof. intros L S (H1 & H2). unfold brought. rewrite L, S. auto. Qed.
  Lemma brought_other D F y : sr y <> SOCK_UDP -> sr y <> SOCK_MACRAW -> brought D F y.
  Proof. intros H1 H2. split; intros; contradiction. Qed.
  Lemma part_none {A} (l : list A) : part [] l.
  Proof. exact (part_more [] [] l (part_nil)). Qed.
  Lemma brought_none D F y : rxlog y = [] -> brought D F y.
  Proof. intros L. split; intros _; exists []; (split; [exact L|split; [constructor|apply part_none]]). Qed.
  Lemma brought_more D F D' F' x : brought D F x -> brought (D ++ D') (F ++ F') x.
  Proof.
    intros (H1 & H2). split; intros E; [destruct (H1 E) as (q & A & B & C)|destruct (H2 E) as (q & A & B & C)]; exists q; (split; [exact A|split; [exact B|now apply part_more]]).
  Qed.
  Lemma rx_append_cases x ch : (rxlog (rx_append x ch) = rxlog x /\ sr (rx_append x ch) = sr x) \/ (rxlog (rx_append x ch) = rxlog x ++ ch /\ sr (rx_append x ch) = sr x).
  Proof. unfold rx_append. destruct (_ <=? _); [right|left]; split; reflexivity. Qed.

  Lemma brought_step D F x ev : ev_sock ev = Some i -> brought D F x -> brought (D ++ dgrams_in i [ev]) (F ++ frames_in [ev]) (sock_step x ev).
  Proof.
    intros A H0. pose proof (brought_more D F (dgrams_in i [ev]) (frames_in [ev]) x H0) as H. destruct ev; cbn [sock_step] in *.
    - destruct (_ || _); [apply brought_other; discriminate|exact H].
    - destruct (_ =? _); [apply brought_other; discriminate|exact H].
    - destruct (_ =? _); [apply brought_other; discriminate|exact H].
    - destruct (_ || _); [apply brought_other; discriminate|exact H].
    - destruct (N.eqb_spec (sr x) SOCK_ESTABLISHED) as [E|]; [|exact H]. destruct (rx_append_cases x d) as [[L S]|[L S]]; apply brought_other; rewrite S, E; discriminate.
    - destruct (N.eqb_spec (sr x) SOCK_UDP) as [E|]; [|exact H]. destruct (N.eqb_spec (len ip) 4) as [E4|]; [|exact H]. destruct (N.ltb_spec port 65536); [|exact H]. destruct (N.ltb_spec (len d) 65536); [|exact H]. cbn [andb].
      destruct (rx_append_cases x (udp_record ip port d)) as [[L S]|[L S]]; [now apply (brought_same _ _ x)|]. split; rewrite S, E; intros K; [|discriminate K].
      destruct (proj1 H0 E) as (q & Q1 & Q2 & Q3). exists (q ++ [mkDgram ip port d]). rewrite L, Q1, records_app. unfold records at 3. cbn [map concat]. rewrite app_nil_r. split; [reflexivity|].
      split; [apply Forall_app; split; [exact Q2|constructor; [|constructor]]; split; [exact E4|]; split; assumption|].
      cbn [ev_sock] in A. injection A as ->. unfold dgrams_in. cbn [flat_map]. rewrite N.eqb_refl. cbn [List.app]. apply part_app; [exact Q3|apply part_refl].
    - destruct (N.eqb_spec (sr x) SOCK_MACRAW) as [E|]; [|exact H]. destruct (N.ltb_spec (len d) 65534); [|exact H]. cbn [andb].
      destruct (rx_append_cases x (raw_record d)) as [[L S]|[L S]]; [now apply (brought_same _ _ x)|]. split; rewrite S, E; intros K; [discriminate K|].
      destruct (proj2 H0 E) as (q & Q1 & Q2 & Q3). exists (q ++ [d]). rewrite L, Q1, frames_app, frames_one. split; [reflexivity|].
      split; [apply Forall_app; split; [exact Q2|now constructor]|]. apply part_app; [exact Q3|apply part_refl].
    - unfold transmit. destruct (tx_busy x); [|exact H]. destruct ((sr x =? _) || (sr x =? _)); (destruct (_ =? 0); destruct (_ =? _); now apply (brought_same _ _ x)).
    - destruct (tx_okdue x); [now apply (brought_same _ _ x)|exact H].
    - destruct (tx_busy x); [|exact H]. destruct ((sr x =? _) || (sr x =? _)); destruct advance; try (now apply (brought_same _ _ x)); apply brought_other; discriminate.
    - now apply (brought_same _ _ x).
    - exact H.
  Qed.
  Lemma brought_command D F n x v : brought D F x -> brought D F (do_command n x v).
  Proof.
    intros H. unfold do_command. repeat match goal with |- context [if ?b then _ else _] => destruct b end; try exact H;
      first [now apply brought_none|now apply (brought_same _ _ x)|apply brought_other; discriminate].
  Qed.
  Lemma brought_wr D F n x a v : brought D F x -> brought D F (sock_wr n x a v).
  Proof. intros H. unfold sock_wr. destruct (a =? Sn_CR); [now apply brought_command|]. destruct (a =? Sn_IR); [now apply (brought_same _ _ x)|]. destruct (read_only a); now apply (brought_same _ _ x). Qed.
  Lemma brought_wbyte D F c b a v j : brought D F (socks c j) -> brought D F (socks (wbyte c b a v) j).
  Proof.
    intros H. assert (S : forall n f, (forall x, brought D F x -> brought D F (f x)) -> brought D F (socks (set_sock c n (f (socks c n))) j)).
    { intros n f X. cbn [set_sock socks]. destruct (N.eqb_spec j n) as [->|]; auto. }
    unfold wbyte. destruct (b =? 0).
    - destruct (a =? MR); [destruct (N.testbit _ _)|destruct (a =? VERSIONR)]; cbn [set_com socks chip_reset]; try exact H. apply brought_other; discriminate.
    - assert (T : forall m, brought D F (socks (set_sock c (b / 4) (set_txm (socks c (b / 4)) (m (socks c (b / 4))))) j)).
      { intros m. apply (S (b / 4) (fun x => set_txm x (m x))). intros x. now apply brought_same. }
      assert (U : forall m, brought D F (socks (set_sock c (b / 4) (set_rxm (socks c (b / 4)) (m (socks c (b / 4))))) j)).
      { intros m. apply (S (b / 4) (fun x => set_rxm x (m x))). intros x. now apply brought_same. }
      destruct (b mod 4) as [|[[p|p|]|[p|p|]|]]; try exact H.
      + destruct (_ =? 0); [exact H|]. apply (U (fun x => upd (rxm x) (a mod rx_size x) v)).
      + destruct (_ =? 0); [exact H|]. apply (T (fun x => upd (txm x) (a mod tx_size x) v)).
      + apply (S (b / 4) (fun x => sock_wr (b / 4) x a v)). intros x. apply brought_wr.
  Qed.
End Brought.

(** socket [i] at time [t]: nothing but what came for it since [t0] *)
Definition brought_since (e : env) (i : N) (t0 t : nat) (c : chip) : Prop :=
  (t0 <= t)%nat /\ brought (dgrams_in i (events e t0 t)) (frames_in (events e t0 t)) (socks c i).
Lemma brought_nsteps i : forall evs D F c, brought D F (socks c i) -> brought (D ++ dgrams_in i evs) (F ++ frames_in evs) (socks (nsteps c evs) i).
Proof.
  unfold nsteps. induction evs as [|ev evs IH]; intros D F c H; cbn [fold_left].
  { change (dgrams_in i []) with (@nil dgram). change (frames_in []) with (@nil (list byte)). now rewrite !app_nil_r. }
  change (ev :: evs) with ([ev] ++ evs). unfold dgrams_in, frames_in. rewrite !flat_map_app, !app_assoc. fold (dgrams_in i [ev]) (dgrams_in i evs) (frames_in [ev]) (frames_in evs). apply IH.
  unfold nstep. destruct (ev_sock ev) as [n|] eqn:E.
  - cbn [set_sock socks]. destruct (N.eqb_spec i n) as [<-|]; [now apply brought_step|now apply brought_more].
  - destruct ev; now apply brought_more.
Qed.
Lemma brought_run {A} e i t0 (p : prog A) s o s' : run e p s = (o, s') -> brought_since e i t0 (s_tick s) (s_chip s) -> brought_since e i t0 (s_tick s') (s_chip s').
Proof.
  intros R. refine (run_keeps e (brought_since e i t0) _ _ p s o s' R).
  - intros c t (Ht & H). split; [lia|]. rewrite events_S by exact Ht. unfold dgrams_in, frames_in. rewrite !flat_map_app. now apply brought_nsteps.
  - intros c t b a v (Ht & H). split; [exact Ht|now apply brought_wbyte].
Qed.

(** ** The records determine the datagrams *)
Lemma app_split {A} : forall (d d' r r' : list A), length d = length d' -> d ++ r = d' ++ r' -> d = d' /\ r = r'.
Proof.
  induction d as [|x d IH]; intros [|x' d'] r r' L E; try discriminate L; [auto|]. cbn in L, E. injection E as <- E. destruct (IH d' r r') as [-> ->]; [lia|exact E|auto].
Qed.
Lemma two_bytes x y : x < 65536 -> y < 65536 -> hi x = hi y -> lo x = lo y -> x = y.
Proof. intros X Y H1 H2. apply (f_equal b2n) in H1, H2. unfold hi, lo in *. rewrite !b2n_u8 in *. lia. Qed.
Lemma record_inj g g' r r' : wf_dgram g -> wf_dgram g' -> record_of g ++ r = record_of g' ++ r' -> g = g' /\ r = r'.
Proof.
  intros (A & B & C) (A' & B' & C'). destruct g as [ip p d], g' as [ip' p' d']. unfold record_of, udp_record. cbn [g_ip g_port g_data] in *.
  destruct ip as [|b0 [|b1 [|b2 [|b3 [|]]]]]; try (rewrite ?len_cons in A; change (len (@nil byte)) with 0 in A; lia).
  destruct ip' as [|c0 [|c1 [|c2 [|c3 [|]]]]]; try (rewrite ?len_cons in A'; change (len (@nil byte)) with 0 in A'; lia).
  cbn [List.app]. intros E. injection E as -> -> -> -> P1 P2 L1 L2 E.
  apply (two_bytes p p' B B' P1) in P2. apply (two_bytes _ _ C C' L1) in L2. subst p'. clear L1. rename L2 into L1. destruct (app_split d d' r r') as [-> ->]; [unfold len in L1; lia|exact E|auto].
Qed.
Lemma records_inj : forall q q', Forall wf_dgram q -> Forall wf_dgram q' -> records q = records q' -> q = q'.
Proof.
  induction q as [|g q IH]; intros [|g' q'] W W' E; [reflexivity| | |].
  - exfalso. inversion W' as [|? ? Wg _]; subst. apply (f_equal len) in E. unfold records in E. cbn [map concat] in E. rewrite len_app, len_record in E by exact Wg. change (len (@nil byte)) with 0 in E. lia.
  - exfalso. inversion W as [|? ? Wg _]; subst. apply (f_equal len) in E. unfold records in E. cbn [map concat] in E. rewrite len_app, len_record in E by exact Wg. change (len (@nil byte)) with 0 in E. lia.
  - inversion W; inversion W'; subst. unfold records in E. cbn [map concat] in E. apply record_inj in E as [-> E]; try assumption. f_equal. now apply IH.
Qed.
Lemma frames_inj : forall q q', Forall wf_frame q -> Forall wf_frame q' -> frames q = frames q' -> q = q'.
Proof.
  induction q as [|f q IH]; intros [|f' q'] W W' E; [reflexivity|discriminate E|discriminate E|].
  inversion W as [|? ? W1 W2]; inversion W' as [|? ? W1' W2']; subst. unfold wf_frame in W1, W1'. rewrite !frames_cons in E. unfold raw_record in E. cbn [List.app] in E. injection E as E1 E2 E.
  apply (two_bytes (len f + 2) (len f' + 2) ltac:(lia) ltac:(lia) E1) in E2. clear E1. rename E2 into E1. destruct (app_split f f' (frames q) (frames q')) as [-> E']; [unfold len in E1; lia|exact E|]. f_equal. now apply IH.
Qed.

(** ** TCP *)
Section Keeps_mild.
  Context (e : env) (P : nat -> chip -> Prop) (W : N -> N -> byte -> Prop).
  Hypothesis Hn : forall c t, P t c -> P (S t) (nsteps c (happens e t)).
  Hypothesis Hw : forall c t b a v, W b a v -> P t c -> P t (wbyte c b a v).
  Lemma keeps_mild_write b d : forall a s, each W b a d -> at_sys P s -> at_sys P (write_bytes e b a d s).
  Proof. induction d as [|v d IH]; intros a s M H; cbn [write_bytes each] in *; [exact H|]. destruct M as [M1 M2]. apply IH; [exact M2|]. unfold at_sys. cbn [on_chip s_chip s_tick tick]. now apply Hw, Hn. Qed.
  Lemma run_keeps_mild {A} (p : prog A) : mild W p -> forall s o s', run e p s = (o, s') -> at_sys P s -> at_sys P s'.
  Proof.
    induction p as [a|w| |b a d k IH|b a d k IH]; cbn [run mild]; intros M s o s' R H; try (injection R as _ <-; exact H).
    - pose proof (bus_read_length e b a d s) as L. destruct (bus_read e b a d s) as [r s1] eqn:B. cbn [fst] in L. destruct r as [got r]. refine (IH _ (M _ _ L) _ _ _ R _). unfold bus_read in B. destruct (fails e (s_call s)) as [[q er]|].
      + pose proof (keeps_read e P Hn b (Nat.min q (length d)) a s H) as K. destruct (read_bytes e b a _ s). injection B as _ _ <-. exact K.
      + pose proof (keeps_read e P Hn b (length d) a s H) as K. destruct (read_bytes e b a _ s). injection B as _ _ <-. exact K.
    - destruct M as [M1 M2]. destruct (bus_write e b a d s) as [r s1] eqn:B. refine (IH _ (M2 _) _ _ _ R _). unfold bus_write in B.
      destruct (fails e (s_call s)) as [[q er]|]; injection B as _ <-; apply keeps_mild_write; auto using each_firstn.
  Qed.
End Keeps_mild.

(** the TCP segments for a socket among the events *)
Definition segments_in (i : N) (evs : list nevent) : list (list byte) :=
  flat_map (fun ev => match ev with EvTcpData j d => if j =? i then [d] else [] | _ => [] end) evs.
Section Told.
  Context (i : N).
  Definition told (T : list (list byte)) (x : sock) : Prop := exists q, rxlog x = concat q /\ part q T.
  (** a socket that is open for TCP *)
  Definition told_open (T : list (list byte)) (x : sock) : Prop := sr x <> SOCK_CLOSED -> sr x <> SOCK_UDP -> sr x <> SOCK_MACRAW -> told T x.
  (** a socket that has been opened for TCP *)
  Definition told_tcp (T : list (list byte)) (x : sock) : Prop := sr x <> SOCK_UDP /\ sr x <> SOCK_MACRAW /\ told T x.
  Lemma told_same T x y : rxlog y = rxlog x -> told T x -> told T y.
  Proof. intros E (q & H). exists q. now rewrite E. Qed.
  Lemma told_more T T' x : told T x -> told (T ++ T') x.
  Proof. intros (q & H1 & H2). exists q. split; [exact H1|now apply part_more]. Qed.
  Lemma told_none T x : rxlog x = [] -> told T x.
  Proof. intros E. exists []. split; [exact E|apply part_none]. Qed.
  Lemma told_step T x ev : ev_sock ev = Some i -> sr x <> SOCK_UDP -> sr x <> SOCK_MACRAW -> told T x -> told (T ++ segments_in i [ev]) (sock_step x ev).
  Proof.
    intros A N1 N2 H0. pose proof (told_more T (segments_in i [ev]) x H0) as H. destruct ev; cbn [sock_step] in *.
    - destruct (_ || _); [now apply (told_same _ x)|exact H].
    - destruct (_ =? _); [now apply (told_same _ x)|exact H].
    - destruct (_ =? _); [now apply (told_same _ x)|exact H].
    - destruct (_ || _); [now apply (told_same _ x)|exact H].
    - destruct (_ =? _); [|exact H]. destruct (rx_append_cases x d) as [[L S]|[L S]]; [now apply (told_same _ x)|].
      cbn [ev_sock] in A. injection A as ->. destruct H0 as (q & Q1 & Q2). exists (q ++ [d]). rewrite L, Q1, concat_app. cbn [concat]. rewrite app_nil_r. split; [reflexivity|].
      unfold segments_in. cbn [flat_map]. rewrite N.eqb_refl. cbn [List.app]. apply part_app; [exact Q2|apply part_refl].
    - destruct (N.eqb_spec (sr x) SOCK_UDP); [contradiction|exact H].
    - destruct (N.eqb_spec (sr x) SOCK_MACRAW); [contradiction|exact H].
    - unfold transmit. destruct (tx_busy x); [|exact H]. destruct ((sr x =? _) || (sr x =? _)); (destruct (_ =? 0); destruct (_ =? _); now apply (told_same _ x)).
    - destruct (tx_okdue x); [now apply (told_same _ x)|exact H].
    - destruct (tx_busy x); [|exact H]. destruct ((sr x =? _) || (sr x =? _)); destruct advance; now apply (told_same _ x).
    - now apply (told_same _ x).
    - exact H.
  Qed.
  (** what an event does to the status *)
  Lemma step_status x ev : (sr (sock_step x ev) = sr x) \/ sr (sock_step x ev) = SOCK_CLOSED \/ (sr x <> SOCK_CLOSED /\ sr x <> SOCK_UDP /\ sr x <> SOCK_MACRAW /\ sr (sock_step x ev) <> SOCK_UDP /\ sr (sock_step x ev) <> SOCK_MACRAW).
  Proof.
    destruct ev; cbn [sock_step]; auto.
    - destruct ((sr x =? SOCK_SYNSENT) || (sr x =? SOCK_LISTEN)) eqn:E; [|auto]. right. right. apply orb_true_iff in E. rewrite !N.eqb_eq in E. destruct E as [-> | ->]; repeat split; discriminate.
    - destruct (_ =? _); [right; now left|auto].
    - destruct (N.eqb_spec (sr x) SOCK_ESTABLISHED) as [E|]; [|auto]. right. right. rewrite E. repeat split; discriminate.
    - destruct (_ || _); [right; now left|auto].
    - destruct (_ =? _); [|auto]. left. destruct (rx_append_cases x d) as [[_ S]|[_ S]]; exact S.
    - destruct (_ && _); [|auto]. left. destruct (rx_append_cases x (udp_record ip port d)) as [[_ S]|[_ S]]; exact S.
    - destruct (_ && _); [|auto]. left. destruct (rx_append_cases x (raw_record d)) as [[_ S]|[_ S]]; exact S.
    - left. unfold transmit. destruct (tx_busy x); [|reflexivity]. destruct ((sr x =? _) || (sr x =? _)); (destruct (_ =? 0); destruct (_ =? _); reflexivity).
    - left. destruct (tx_okdue x); reflexivity.
    - destruct (tx_busy x); [|auto]. destruct ((sr x =? _) || (sr x =? _)); destruct advance; auto.
  Qed.
  Lemma told_open_step T x ev : ev_sock ev = Some i -> told_open T x -> told_open (T ++ segments_in i [ev]) (sock_step x ev).
  Proof.
    intros A H N0 N1 N2. destruct (step_status x ev) as [E|[E|(E0 & E1 & E2 & _)]]; [|contradiction|].
    - rewrite E in N0, N1, N2. apply told_step; auto.
    - apply told_step; auto.
  Qed.
  Lemma told_tcp_step T x ev : ev_sock ev = Some i -> told_tcp T x -> told_tcp (T ++ segments_in i [ev]) (sock_step x ev).
  Proof.
    intros A (N1 & N2 & H). pose proof (told_step T x ev A N1 N2 H) as K. destruct (step_status x ev) as [E|[E|(E0 & E1 & E2 & E3 & E4)]]; (split; [|split; [|exact K]]); try assumption; rewrite E; try assumption; discriminate.
  Qed.
  (** no OPEN for socket [i] and no reset *)
  Definition unopened (b a : N) (v : byte) : Prop := ~ (b = BSB_REG i /\ a = Sn_CR /\ v = u8 CR_OPEN) /\ ~ (b = 0 /\ a = MR /\ N.testbit (b2n v) 7 = true).
  Lemma told_open_command T n x v : told_open T x -> told_open T (do_command n x v).
  Proof.
    intros H. unfold do_command. repeat match goal with |- context [if ?b then _ else _] => destruct b eqn:? end; try exact H;
      intros N0 N1 N2; try (first [now apply told_none|now elim N0|now elim N1|now elim N2]);
      apply (told_same _ x); try reflexivity; apply H;
      repeat match goal with E : (sr _ =? _) = true |- _ => apply N.eqb_eq in E; rewrite E in * end; try discriminate; assumption.
  Qed.
  Lemma told_tcp_command T n x v : v <> CR_OPEN -> told_tcp T x -> told_tcp T (do_command n x v).
  Proof.
    intros E (N1 & N2 & H). unfold do_command. destruct (N.eqb_spec v CR_OPEN); [contradiction|].
    repeat match goal with |- context [if ?b then _ else _] => destruct b end;
      (split; [first [exact N1|discriminate]|split; [first [exact N2|discriminate]|]]); try exact H; try (now apply (told_same _ x)); now apply told_none.
  Qed.
  Lemma told_open_wr T n x a v : told_open T x -> told_open T (sock_wr n x a v).
  Proof. intros H. unfold sock_wr. destruct (a =? Sn_CR); [now apply told_open_command|]. destruct (a =? Sn_IR); [exact H|]. destruct (read_only a); exact H. Qed.
  Lemma told_tcp_wr T n x a v : ~ (a = Sn_CR /\ v = u8 CR_OPEN) -> told_tcp T x -> told_tcp T (sock_wr n x a v).
  Proof.
    intros N H. unfold sock_wr. destruct (N.eqb_spec a Sn_CR) as [->|].
    - apply told_tcp_command; [|exact H]. intros E. apply N. split; [reflexivity|]. rewrite <- E. now destruct v.
    - destruct (a =? Sn_IR); [exact H|]. destruct (read_only a); exact H.
  Qed.
  Lemma told_open_wbyte T c b a v : told_open T (socks c i) -> told_open T (socks (wbyte c b a v) i).
  Proof.
    intros H. assert (S : forall n f, (forall x, told_open T x -> told_open T (f x)) -> told_open T (socks (set_sock c n (f (socks c n))) i)).
    { intros n f X. cbn [set_sock socks]. destruct (N.eqb_spec i n) as [->|]; auto. }
    unfold wbyte. destruct (b =? 0).
    - destruct (a =? MR); [destruct (N.testbit _ _)|destruct (a =? VERSIONR)]; cbn [set_com socks chip_reset]; try exact H. intros N0. now elim N0.
    - assert (M : forall m, told_open T (socks (set_sock c (b / 4) (set_txm (socks c (b / 4)) (m (socks c (b / 4))))) i)).
      { intros m. apply (S (b / 4) (fun x => set_txm x (m x))). intros x Hx. exact Hx. }
      assert (U : forall m, told_open T (socks (set_sock c (b / 4) (set_rxm (socks c (b / 4)) (m (socks c (b / 4))))) i)).
      { intros m. apply (S (b / 4) (fun x => set_rxm x (m x))). intros x Hx. exact Hx. }
      destruct (b mod 4) as [|[[p|p|]|[p|p|]|]]; try exact H.
      + destruct (_ =? 0); [exact H|]. apply (U (fun x => upd (rxm x) (a mod rx_size x) v)).
      + destruct (_ =? 0); [exact H|]. apply (M (fun x => upd (txm x) (a mod tx_size x) v)).
      + apply (S (b / 4) (fun x => sock_wr (b / 4) x a v)). intros x. apply told_open_wr.
  Qed.
  Lemma told_tcp_wbyte T c b a v : unopened b a v -> told_tcp T (socks c i) -> told_tcp T (socks (wbyte c b a v) i).
  Proof.
    intros (U1 & U2) H. assert (S : forall n f, (n = i -> forall x, told_tcp T x -> told_tcp T (f x)) -> told_tcp T (socks (set_sock c n (f (socks c n))) i)).
    { intros n f X. cbn [set_sock socks]. destruct (N.eqb_spec i n) as [->|]; auto. }
    unfold wbyte. destruct (N.eqb_spec b 0) as [->|Nb].
    - destruct (N.eqb_spec a MR) as [->|]; [destruct (N.testbit (b2n v) 7) eqn:E; [now elim U2|exact H]|destruct (a =? VERSIONR); exact H].
    - assert (M : forall m, told_tcp T (socks (set_sock c (b / 4) (set_txm (socks c (b / 4)) (m (socks c (b / 4))))) i)).
      { intros m. apply (S (b / 4) (fun x => set_txm x (m x))). intros _ x Hx. exact Hx. }
      assert (U : forall m, told_tcp T (socks (set_sock c (b / 4) (set_rxm (socks c (b / 4)) (m (socks c (b / 4))))) i)).
      { intros m. apply (S (b / 4) (fun x => set_rxm x (m x))). intros _ x Hx. exact Hx. }
      pose proof (N.div_mod b 4 ltac:(discriminate)) as Eb.
      destruct (b mod 4) as [|[[p|p|]|[p|p|]|]]; try exact H.
      + destruct (_ =? 0); [exact H|]. apply (U (fun x => upd (rxm x) (a mod rx_size x) v)).
      + destruct (_ =? 0); [exact H|]. apply (M (fun x => upd (txm x) (a mod tx_size x) v)).
      + apply (S (b / 4) (fun x => sock_wr (b / 4) x a v)). intros En x. apply told_tcp_wr. intros (-> & ->). apply U1. unfold BSB_REG. split; [lia|auto].
  Qed.
End Told.
Lemma segments_app i evs evs' : segments_in i (evs ++ evs') = segments_in i evs ++ segments_in i evs'.
Proof. apply flat_map_app. Qed.
Section Told_events.
  Context (i : N) (K : list (list byte) -> sock -> Prop).
  Hypothesis Hstep : forall T x ev, ev_sock ev = Some i -> K T x -> K (T ++ segments_in i [ev]) (sock_step x ev).
  Hypothesis Hmore : forall T T' x, K T x -> K (T ++ T') x.
  Lemma segs_nsteps : forall evs T c, K T (socks c i) -> K (T ++ segments_in i evs) (socks (nsteps c evs) i).
  Proof.
    unfold nsteps. induction evs as [|ev evs IH]; intros T c H; cbn [fold_left]; [now apply Hmore|].
    change (ev :: evs) with ([ev] ++ evs). rewrite segments_app, app_assoc. apply IH.
    unfold nstep. destruct (ev_sock ev) as [n|] eqn:E.
    - cbn [set_sock socks]. destruct (N.eqb_spec i n) as [<-|]; [now apply Hstep|now apply Hmore].
    - destruct ev; now apply Hmore.
  Qed.
  (** socket [i] at time [t]: nothing but what came for it since [t0] *)
  Definition segs_since (e : env) (t0 t : nat) (c : chip) : Prop := (t0 <= t)%nat /\ K (segments_in i (events e t0 t)) (socks c i).
  Lemma segs_since_n e t0 c t : segs_since e t0 t c -> segs_since e t0 (S t) (nsteps c (happens e t)).
  Proof. intros (Ht & H). split; [lia|]. rewrite events_S by exact Ht. rewrite segments_app. now apply segs_nsteps. Qed.
End Told_events.
Lemma told_open_more T T' x : told_open T x -> told_open (T ++ T') x.
Proof. intros H N0 N1 N2. apply told_more. now apply H. Qed.
Lemma told_tcp_more T T' x : told_tcp T x -> told_tcp (T ++ T') x.
Proof. intros (N1 & N2 & H). split; [exact N1|]. split; [exact N2|now apply told_more]. Qed.

(** ** The calls on an open TCP handle *)
Lemma each_range (W : N -> N -> byte -> Prop) b : forall d a, a + len d <= 65536 -> (forall a' v, a <= a' -> a' < a + len d -> W b a' v) -> each W b a d.
Proof.
  induction d as [|v d IH]; intros a L H; cbn [each]; [exact I|]. rewrite len_cons in *. split; [apply H; lia|].
  destruct d as [|w d]; [exact I|]. rewrite len_cons in *. replace (next_addr a) with (a + 1) by (unfold next_addr; rewrite N.mod_small by lia; reflexivity).
  apply IH; [lia|]. intros a' v' H1 H2. apply H; lia.
Qed.
Lemma unopened_spares {A} i (p : prog A) : spares i p -> mild (unopened i) p.
Proof.
  induction p as [a|w| |b a d k IH|b a d k IH]; cbn [spares mild]; intros H; auto. destruct H as [Hw H]. split; [|auto].
  destruct Hw as [(H1 & H2)|(-> & [(-> & v & -> & E)|(H1 & H2)])].
  - apply each_all. intros a' v. split; intros (X & _); [|contradiction]. apply H2. rewrite X. now destruct (blk_reg i) as (_ & -> & _).
  - cbn [each]. split; [|exact I]. split; [intros (X & _); unfold BSB_REG in X; lia|]. rewrite E. intros (_ & _ & X). discriminate X.
  - apply each_range; [exact H2|]. intros a' v L1 L2. split; [intros (X & _); unfold BSB_REG in X; lia|]. intros (_ & -> & _). unfold MR in L1. lia.
Qed.
Lemma unopened_own {A} i l (B : N -> N -> Prop) W G (p : prog A) : ~ In CR_OPEN l -> Forall (fun c => c < 256) l -> (forall blk a, B blk a -> own_block i blk) ->
  ptree B W G p -> writes (cmdw i l) p -> mild (unopened i) p.
Proof.
  intros Nl Fl HB. induction p as [a|w| |b a d k IH|b a d k IH]; cbn [ptree writes mild]; intros H1 H2; auto.
  - destruct H1 as [_ H1]. auto.
  - destruct H1 as [Hb H1], H2 as [Hq H2]. split; [|auto]. destruct (own_block_div i b (HB _ _ Hb)) as [E0 _]. apply N.eqb_neq in E0.
    assert (Z : forall a' v, a' <> Sn_CR -> unopened i b a' v) by (intros a' v Na; split; [intros (_ & X & _); contradiction|intros (X & _); contradiction]).
    destruct (N.eq_dec b (BSB_REG i)) as [->|Nb].
    + destruct (Hq i eq_refl) as (_ & [L|[(L & L')|(-> & c & Hc & ->)]]).
      * apply each_range; [unfold Sn_CR in L; lia|]. intros a' v _ X. apply Z. lia.
      * apply each_range; [exact L'|]. intros a' v X _. apply Z. lia.
      * cbn [each]. split; [|exact I]. split; [|intros (X & _); contradiction]. intros (_ & _ & X). apply Nl.
        rewrite Forall_forall in Fl. apply (f_equal b2n) in X. rewrite !b2n_u8 in X. rewrite N.mod_small in X by (now apply Fl). change (CR_OPEN mod 256) with CR_OPEN in X. now rewrite <- X.
    + apply each_all. intros a' v. split; [intros (X & _); contradiction|intros (X & _); contradiction].
Qed.
Lemma unopened_step fuel a o h i : i < 8 -> pool_inv a -> lookup h (handles a) = Some (HTcp (mkTcp (socket_new i))) -> leaves_open h o -> mild (unopened i) (step fuel a o).
Proof.
  intros Hi P L K. assert (Dec : op_handle o = Some h \/ op_handle o <> Some h).
  { destruct (op_handle o) as [h'|]; [|right; discriminate]. destruct (Nat.eq_dec h' h) as [->|]; [left; reflexivity|right; congruence]. }
  destruct Dec as [E|E].
  - assert (G : good (handles a)) by (intros h' y Hy; destruct (pi_socket _ P h' y Hy) as (j & Hj & -> & _); exists j; split; [exact Hj|reflexivity]).
    destruct o; cbn [op_handle] in E; try discriminate E; injection E as ->; cbn [leaves_open] in K; try (now elim K); try (cbn [step]; rewrite L; exact I).
    all: match goal with |- mild _ (step ?f ?a ?o) => pose proof (pt_step f a o P) as T; pose proof (cw_step f a o G) as C; unfold op_socket in C; cbn [op_handle] in C; rewrite L in C; cbn [handle_socket t_socket index socket_new] in C end.
    all: refine (unopened_own i _ _ _ _ _ _ _ _ T C); [cbn; intros X; decompose [or] X; try discriminate; contradiction|repeat constructor|].
    all: unfold step_blk; cbn [op_handle].
    all: intros blk ad (y & Ly & S); rewrite L in Ly; injection Ly as <-; cbn [handle_socket t_socket] in S; unfold sblk in S; rewrite (so_reg i Hi), (so_tx i Hi), (so_rx i Hi) in S; apply S.
  - apply unopened_spares. eapply FrameFacts.spares_step; eauto. intros ->. exact K.
Qed.
Lemma open_lookup e fuel a o s a' out s' h i : lookup h (handles a) = Some (HTcp (mkTcp (socket_new i))) -> leaves_open h o ->
  run e (step fuel a o) s = (Done (a', out), s') -> lookup h (handles a') = Some (HTcp (mkTcp (socket_new i))).
Proof.
  intros L K R. assert (Dec : op_handle o = Some h \/ op_handle o <> Some h).
  { destruct (op_handle o) as [h'|]; [|right; discriminate]. destruct (Nat.eq_dec h' h) as [->|]; [left; reflexivity|right; congruence]. }
  destruct Dec as [E|E]; [|now apply (step_lookup e fuel a o s a' out s')].
  destruct o; cbn [op_handle] in E; try discriminate E; injection E as ->; cbn [step leaves_open] in *; try (now elim K); rewrite L in R;
    try (cbn [run] in R; injection R as <- <- <-; exact L);
    apply run_bind_done in R as (res & s1 & _ & R); cbn [run] in R; injection R as <- _ _; exact L.
Qed.
Lemma told_tcp_ops e fuel h i t0 : i < 8 -> forall ops a s a' outs s', pool_inv a -> lookup h (handles a) = Some (HTcp (mkTcp (socket_new i))) -> Forall (leaves_open h) ops ->
  run e (run_ops fuel a ops) s = (Done (a', outs), s') -> segs_since i told_tcp e t0 (s_tick s) (s_chip s) -> segs_since i told_tcp e t0 (s_tick s') (s_chip s').
Proof.
  intros Hi. induction ops as [|o ops IH]; intros a s a' outs s' I L K R S; cbn [run_ops] in R; [now injection R as _ _ <-|].
  apply run_bind_done in R as ([a1 o1] & s1 & R1 & R). apply run_bind_done in R as ([a2 o2] & s2 & R2 & R).
  cbn [run fst snd] in *. injection R as <- <- <-. inversion K as [|? ? K1 K2]; subst.
  refine (IH a1 s1 a2 o2 s2 (run_step_inv e fuel a o s a1 o1 s1 I R1) (open_lookup _ _ _ _ _ _ _ _ _ _ L K1 R1) K2 R2 _).
  refine (run_keeps_mild e (segs_since i told_tcp e t0) (unopened i) _ _ (step fuel a o) (unopened_step fuel a o h i Hi I L K1) s _ s1 R1 S).
  - intros c t. apply segs_since_n; [apply told_tcp_step|apply told_tcp_more].
  - intros c t b ad v U (Ht & H). split; [exact Ht|]. now apply told_tcp_wbyte.
Qed.
(** the connect: after its CLOSE the socket is closed; what is in the RX memory at its end came after that *)
Lemma connect_told e fuel i r s0 s1 : i < 8 -> run e (tcp_connect fuel (mkTcp (socket_new i)) (V4 r)) s0 = (Done (Ok tt), s1) ->
  segs_since i told_open e (s_tick s0) (s_tick s1) (s_chip s1).
Proof.
  intros Hi R. unfold tcp_connect, tcp_open, command, write_frame, try_ in R. cbn [t_socket register socket_new bind run] in R.
  destruct (bus_write e _ s_COMMAND _ s0) as [[[]|er] s2] eqn:B; [|cbn [bind run tE] in R; discriminate R].
  refine (run_keeps e (segs_since i told_open e (s_tick s0)) _ _ _ s2 _ s1 R _).
  - intros c t. apply segs_since_n; [apply told_open_step|apply told_open_more].
  - intros c t b ad v (Ht & H). split; [exact Ht|]. now apply told_open_wbyte.
  - unfold bus_write in B. destruct (fails e (s_call s0)) as [[q er]|]; [discriminate B|]. injection B as <-. split; [cbn; lia|].
    intros N0. elim N0. clear N0 R.
    assert (Ib : i = 0 \/ i = 1 \/ i = 2 \/ i = 3 \/ i = 4 \/ i = 5 \/ i = 6 \/ i = 7) by lia.
    decompose [or] Ib; subst i; reflexivity.
Qed.
