(** What the sending calls add to the bytes that can leave a socket, bus errors included. *)
From Verif Require Export PipeCalls RawDevice.
From Verif Require Import TcpSession FrameFacts ErrorFacts ProgFacts Datasheet HistoryFacts.

Section Calls.
  Context (lossy : bool) (S0 : list packet) (e : env) (i : N) (Hi : i < 8) (WP : whole_pairs e).
  Notation pp := (pipe lossy S0).
  Notation s_ := (socket_new i).
  Notation M := (mild (harmless lossy i)).

  (** after a send of [d]: a prefix was added; the one reported, if the call succeeds *)
  Definition added {E} (C d : list byte) (o : outcome (res N E)) (s1 : sys) : Prop :=
    exists n, n <= len d /\ pp (C ++ take n d) (sk i s1) /\ forall m, o = Done (Ok m) -> m = n.
  Lemma added_none {E} C d (o : outcome (res N E)) s1 : (forall m, o <> Done (Ok m)) -> pp C (sk i s1) -> added C d o s1.
  Proof. intros H P. exists 0. split; [lia|]. split; [now rewrite app_nil_r|]. intros m E0. now contradiction (H m). Qed.
  Lemma added_all {E} C d (o : outcome (res N E)) s1 : (forall m, o = Done (Ok m) -> m = len d) -> pp (C ++ d) (sk i s1) -> added C d o s1.
  Proof. intros H P. exists (len d). split; [lia|]. split; [now rewrite take_all by lia|exact H]. Qed.

  Lemma wp_tcp_send_data C fuel w s : flow lossy S0 C (tx_wr (sk i s)) (len w) (sk i s) ->
    wp e (tcp_send_data fuel (mkTcp s_) w) (added C w) s.
  Proof.
    intros F. unfold tcp_send_data. cbn [t_socket].
    apply wp_try, (wp_ptr lossy S0 e i Hi C w); [exact F| |].
    2: { intros [[v|x]|z| |] s1 Ho P; [now contradiction (Ho v)|..]; apply added_none; auto; cbn; discriminate. }
    intros p s1 Hp St. apply wp_try, (wp_txdata lossy S0 e i Hi C p w); [exact Hp|exact St| |].
    2: { intros x s2 P. apply added_none; [discriminate|exact P]. }
    intros s2 St2. unfold wadd16, as_u16. rewrite N.add_mod_idemp_r by discriminate.
    apply wp_try, (wp_setptr lossy S0 e i Hi WP C p w); [exact St2| |].
    2: { intros x s3 P. apply added_none; [discriminate|exact P]. }
    assert (K : forall s3, pp (C ++ w) (sk i s3) -> wp e (try c <- command s_ CmSend else tE ;; try d <- wait_send_ok fuel s_ else tE ;;
        try e0 <- reset_interrupt s_ InSendOk else tE ;; Ret (Ok (len w))) (added C w) s3).
    { intros s3 P3.
      apply (wp_try_pipe lossy S0 e i (C ++ w)); [apply mild_command; auto; right; split; discriminate|exact P3| |].
      { intros o s4 Ho P4. apply added_all; [|exact P4]. intros m E. destruct (Ho _ E) as (x & Ex). discriminate Ex. }
      intros a s4 P4. apply (wp_try_pipe lossy S0 e i (C ++ w)); [now apply mild_wait_send_ok|exact P4| |].
      { intros o s5 Ho P5. apply added_all; [|exact P5]. intros m E. destruct (Ho _ E) as (x & Ex). discriminate Ex. }
      intros b s5 P5. apply (wp_try_pipe lossy S0 e i (C ++ w)); [now apply mild_reset_interrupt|exact P5| |].
      { intros o s6 Ho P6. apply added_all; [|exact P6]. intros m E. destruct (Ho _ E) as (x & Ex). discriminate Ex. }
      intros c s6 P6. apply wp_ret. apply added_all; [congruence|exact P6]. }
    intros [[u|x]|z| |] s3 P3; cbn [cast]; try (apply added_all; [intros m [=]|exact P3]). now apply K.
  Qed.
  Lemma wp_tcp_send C fuel d s : pp C (sk i s) -> wp e (tcp_send fuel (mkTcp s_) d) (added C d) s.
  Proof.
    intros P. unfold tcp_send. apply wp_try.
    apply (wp_mono e _ (added C d)).
    { intros [[m|x]|z| |] s1 (n & L & P1 & H); cbn [cast];
        [apply wp_ret; exists n; split; [exact L|]; split; [exact P1|]; intros k [= <-]; now apply H|..];
        (exists n; split; [exact L|]; split; [exact P1|]; discriminate). }
    unfold tcp_socket_send.
    apply (wp_try_pipe lossy S0 e i C); [now apply mild_tcp_is_connected|exact P| |].
    { intros o s1 Ho P1. apply added_none; [|exact P1]. intros m E. destruct (Ho _ E) as (x & Ex). discriminate Ex. }
    intros conn s1 P1. destruct (negb conn); [apply wp_ret, added_none; [discriminate|exact P1]|].
    apply wp_try, (wp_free lossy S0 e i Hi C); [exact P1| |].
    2: { intros [[v|x]|z| |] s2 Ho P2; [now contradiction (Ho v)|..]; apply added_none; auto; cbn; discriminate. }
    intros v s2 F. destruct (N.ltb_spec (len d) v) as [L|L].
    - apply wp_tcp_send_data. apply (flow_less lossy S0 C _ v); [lia|exact F].
    - apply wp_slice_to; [|lia]. intros L'. assert (El : len (take v d) = v) by (rewrite len_take; lia).
      apply (wp_mono e _ (added C (take v d))).
      + intros o s3 (n & Ln & P3 & H). exists n. split; [lia|]. split; [|exact H]. rewrite El in Ln.
        revert P3. unfold take. rewrite firstn_firstn, Nat.min_l by lia. auto.
      + apply wp_tcp_send_data. now rewrite El.
  Qed.

  Lemma wp_udp_send_data C fuel dst prt w s : flow lossy S0 C (tx_wr (sk i s)) (len w) (sk i s) ->
    wp e (udp_send_data fuel (mkUdp s_ dst prt) w) (added C w) s.
  Proof.
    intros F. unfold udp_send_data. cbn [u_socket].
    apply wp_try, (wp_ptr lossy S0 e i Hi C w); [exact F| |].
    2: { intros [[v|x]|z| |] s1 Ho P; [now contradiction (Ho v)|..]; apply added_none; auto; cbn; discriminate. }
    intros p s1 Hp St. apply wp_try, (wp_txdata lossy S0 e i Hi C p w); [exact Hp|exact St| |].
    2: { intros x s2 P. apply added_none; [discriminate|exact P]. }
    intros s2 St2. unfold wadd16, as_u16. rewrite N.add_mod_idemp_r by discriminate.
    apply wp_try, (wp_setptr lossy S0 e i Hi WP C p w); [exact St2| |].
    2: { intros x s3 P. apply added_none; [discriminate|exact P]. }
    assert (K : forall s3, pp (C ++ w) (sk i s3) -> wp e (try c <- udp_block_send_command fuel (mkUdp s_ dst prt) else Err ;; Ret (Ok (len w))) (added C w) s3).
    { intros s3 P3.
      apply (wp_try_pipe lossy S0 e i (C ++ w)); [now apply mild_udp_block_send_command|exact P3| |].
      { intros o s4 Ho P4. apply added_all; [|exact P4]. intros m E. destruct (Ho _ E) as (x & Ex). discriminate Ex. }
      intros a s4 P4. apply wp_ret. apply added_all; [congruence|exact P4]. }
    intros [[u|x]|z| |] s3 P3; cbn [cast]; try (apply added_all; [intros m [=]|exact P3]). now apply K.
  Qed.
  Lemma wp_udp_socket_send C fuel dst prt d s : pp C (sk i s) -> wp e (udp_socket_send fuel (mkUdp s_ dst prt) d) (added C d) s.
  Proof.
    intros P. unfold udp_socket_send. cbn [u_socket u_dest].
    apply (wp_try_pipe lossy S0 e i C); [apply mild_read_then|exact P| |].
    { intros o s1 Ho P1. apply added_none; [|exact P1]. intros m E. destruct (Ho _ E) as (x & Ex). discriminate Ex. }
    intros st s1 P1. destruct (udp_status_gate st) as [u|x]; [|apply wp_ret, added_none; [discriminate|exact P1]].
    destruct dst as [dst|]; [|apply wp_ret, added_none; [discriminate|exact P1]].
    apply wp_try, (wp_free lossy S0 e i Hi C); [exact P1| |].
    2: { intros [[v|x]|z| |] s2 Ho P2; [now contradiction (Ho v)|..]; apply added_none; auto; cbn; discriminate. }
    intros v s2 F. destruct (v =? 0); [apply wp_ret, added_none; [discriminate|now apply pipe_less in F]|].
    destruct (N.ltb_spec (len d) v) as [L|L].
    - apply wp_udp_send_data. apply (flow_less lossy S0 C _ v); [lia|exact F].
    - apply wp_slice_to; [|lia]. intros L'. assert (El : len (take v d) = v) by (rewrite len_take; lia).
      apply (wp_mono e _ (added C (take v d))).
      + intros o s3 (n & Ln & P3 & H). exists n. split; [lia|]. split; [|exact H]. rewrite El in Ln.
        revert P3. unfold take. rewrite firstn_firstn, Nat.min_l by lia. auto.
      + apply wp_udp_send_data. now rewrite El.
  Qed.
  (** a call that answers nothing when it succeeds: then everything was added *)
  Definition added_unit {E} (C d : list byte) (o : outcome (res unit E)) (s1 : sys) : Prop :=
    exists n, n <= len d /\ pp (C ++ take n d) (sk i s1) /\ (o = Done (Ok tt) -> take n d = d).
  Lemma take_more (d : list byte) t n : t + n <= len d -> take t d ++ take n (drop t d) = take (t + n) d.
  Proof.
    intros H. unfold take, drop. rewrite <- (firstn_skipn (N.to_nat t) d) at 3.
    replace (N.to_nat (t + n)) with (N.to_nat t + N.to_nat n)%nat by lia.
    assert (L : length (firstn (N.to_nat t) d) = N.to_nat t) by (rewrite firstn_length; unfold len in H; lia).
    rewrite firstn_app, L. replace (N.to_nat t + N.to_nat n - N.to_nat t)%nat with (N.to_nat n) by lia.
    f_equal. symmetry. rewrite firstn_all2; [reflexivity|]. rewrite L. lia.
  Qed.
  Lemma wp_udp_send_loop C fuel dst prt d : forall outer fs total s, pp (C ++ take total d) (sk i s) -> total <= len d ->
    wp e (udp_send_loop outer fuel (mkUdp s_ dst prt) d fs total) (added_unit C d) s.
  Proof.
    induction outer as [|outer IH]; intros fs total s P L; cbn [udp_send_loop].
    { destruct (N.eqb_spec total (len d)) as [-> |].
      - apply wp_ret. exists (len d). split; [lia|]. split; [exact P|]. intros _. apply take_all. lia.
      - exists total. split; [exact L|]. split; [exact P|]. discriminate. }
    destruct (N.eqb_spec total (len d)) as [-> |Nt].
    { apply wp_ret. exists (len d). split; [lia|]. split; [exact P|]. intros _. apply take_all. lia. }
    apply wp_slice_from; [|lia]. intros _. cbv zeta. set (wl := N.min fs (len (drop total d))).
    apply wp_slice_to; [|unfold wl; lia]. intros Lw.
    assert (Ed : len (drop total d) = len d - total) by apply len_drop.
    assert (Ew : len (take wl (drop total d)) = wl) by (rewrite len_take; lia).
    apply wp_try. apply (wp_mono e _ (added (C ++ take total d) (take wl (drop total d)))); [|now apply wp_udp_socket_send].
    intros o s1 (n & Ln & P1 & H). rewrite Ew in Ln.
    assert (P1' : pp (C ++ take (total + n) d) (sk i s1)).
    { rewrite <- take_more by lia. rewrite app_assoc. revert P1. unfold take at 2. unfold take at 2. rewrite firstn_firstn, Nat.min_l by lia. auto. }
    destruct o as [[m|x]|z| |]; cbn [cast]; try (exists (total + n); split; [lia|]; split; [exact P1'|]; discriminate).
    rewrite (H m eq_refl). apply (wp_try_pipe lossy S0 e i (C ++ take (total + n) d)); [apply mild_read_then|exact P1'| |].
    - intros o s2 Ho P2. exists (total + n). split; [lia|]. split; [exact P2|]. intros E. destruct (Ho _ E) as (x & Ex). discriminate Ex.
    - intros fs' s2 P2. apply IH; [exact P2|lia].
  Qed.
  Lemma wp_udp_send C fuel dst prt d s : pp C (sk i s) -> wp e (udp_send fuel (mkUdp s_ dst prt) d) (added_unit C d) s.
  Proof.
    assert (K : forall (o : outcome (res unit (nberr uerr))) s1, o <> Done (Ok tt) -> pp C (sk i s1) -> added_unit C d o s1).
    { intros o s1 Ho P1. exists 0. split; [lia|]. split; [now rewrite app_nil_r|]. intros E. contradiction. }
    intros P. unfold udp_send, udp_send_all. cbn [u_socket u_dest].
    apply (wp_try_pipe lossy S0 e i C); [apply mild_read_then|exact P| |].
    { intros o s1 Ho P1. apply K; [|exact P1]. intros E. destruct (Ho _ E) as (x & Ex). discriminate Ex. }
    intros st s1 P1. destruct (udp_status_gate st) as [u|x]; [|apply wp_ret, K; [discriminate|exact P1]].
    destruct dst as [dst|]; [|apply wp_ret, K; [discriminate|exact P1]].
    apply wp_try, (wp_free lossy S0 e i Hi C); [exact P1| |].
    2: { intros [[v|x]|z| |] s2 Ho P2; [now contradiction (Ho v)|..]; apply K; auto; cbn; discriminate. }
    intros v s2 F. apply pipe_less in F. destruct (v =? 0); [apply wp_ret, K; [discriminate|exact F]|].
    apply wp_udp_send_loop; [now rewrite app_nil_r|lia].
  Qed.
  Lemma wp_udp_send_to C fuel dst prt r d s : pp C (sk i s) ->
    wp e (udp_send_to fuel (mkUdp s_ dst prt) r d) (fun o s1 => exists n, n <= len d /\ pp (C ++ take n d) (sk i s1) /\
      forall u, o = Done (u, Ok tt) -> take n d = d) s.
  Proof.
    intros P. unfold udp_send_to. destruct r as [r|].
    2: { apply wp_ret. exists 0. split; [lia|]. split; [now rewrite app_nil_r|]. discriminate. }
    unfold udp_send_to_v4. apply wp_bind.
    assert (Hu : forall s1, pp C (sk i s1) -> forall dst', wp e (do q <- udp_send_all fuel (mkUdp s_ dst' prt) d ;; Ret (mkUdp s_ dst' prt, q))
      (fun o s1 => exists n, n <= len d /\ pp (C ++ take n d) (sk i s1) /\ forall u, o = Done (u, Ok tt) -> take n d = d) s1).
    { intros s1 P1 dst'. apply wp_bind. apply (wp_mono e _ (added_unit C d)); [|now apply wp_udp_send].
      intros o s2 (n & Ln & P2 & H). destruct o as [q|z| |]; cbn [cast]; try apply wp_ret; exists n; (split; [exact Ln|]; split; [exact P2|]); try discriminate.
      intros u [= _ ->]. now apply H. }
    assert (Hn : forall (o : outcome (UdpSocket * res unit (nberr uerr))) s1, (forall u, o <> Done (u, Ok tt)) -> pp C (sk i s1) ->
      exists n, n <= len d /\ pp (C ++ take n d) (sk i s1) /\ forall u, o = Done (u, Ok tt) -> take n d = d).
    { intros o s1 Ho P1. exists 0. split; [lia|]. split; [now rewrite app_nil_r|]. intros u E. now contradiction (Ho u). }
    unfold udp_set_destination. cbn [u_socket u_dest u_port].
    destruct (match dst with Some dest => _ | None => _ end).
    2: { apply wp_ret. cbn [fst snd]. now apply Hu. }
    apply (wp_try_pipe lossy S0 e i C); [now apply mild_set_destination_ip|exact P| |].
    { intros [q|z| |] s1 Ho P1; cbn [cast]; [|apply Hn; [discriminate|exact P1]..].
      destruct (Ho q eq_refl) as (x & ->). cbn [fst snd]. apply wp_ret, Hn; [discriminate|exact P1]. }
    intros a s1 P1. apply (wp_try_pipe lossy S0 e i C); [now apply mild_set_destination_port|exact P1| |].
    { intros [q|z| |] s2 Ho P2; cbn [cast]; [|apply Hn; [discriminate|exact P2]..].
      destruct (Ho q eq_refl) as (x & ->). cbn [fst snd]. apply wp_ret, Hn; [discriminate|exact P2]. }
    intros b s2 P2. apply wp_ret. cbn [fst snd]. now apply Hu.
  Qed.
End Calls.
