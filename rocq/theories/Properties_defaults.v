(** C107: the defaults of the crate and those of the chip; C108: the gateway of initialize_manual. *)
From Verif Require Import Cases InitFacts LifeFacts.
From Verif Require Import Datasheet.
From Verif Require Properties_chip.

(** ** C107.  Full statement: a device set up with the default mode has every setting as the chip
    has it after a reset.  True of all common registers but the mode register, whatever the chip
    held before: the default mode also forces an ARP request before each datagram (lib.rs:108). *)
Theorem C107_defaults_partial e chk mc s d s1 : run e (initialize chk mc mode_default) s = (Done (Ok d), s1) ->
  (forall x, x <> MR -> x <> PHYCFGR -> com (s_chip s1) x = com_reset x) /\
  (* no wake on LAN, pings answered, no PPPoE, ARP not from the cache; nothing else *)
  com (s_chip s1) MR = x02 /\
  (* the settings the host starts from are those of the registers *)
  fld (s_chip s1) GAR 4 = [ip0 (hc_gateway hc_default); ip1 (hc_gateway hc_default); ip2 (hc_gateway hc_default); ip3 (hc_gateway hc_default)] /\
  fld (s_chip s1) SUBR 4 = [ip0 (hc_subnet hc_default); ip1 (hc_subnet hc_default); ip2 (hc_subnet hc_default); ip3 (hc_subnet hc_default)] /\
  fld (s_chip s1) SHAR 6 = [m0 (hc_mac hc_default); m1 (hc_mac hc_default); m2 (hc_mac hc_default); m3 (hc_mac hc_default); m4 (hc_mac hc_default); m5 (hc_mac hc_default)] /\
  fld (s_chip s1) SIPR 4 = [ip0 (hc_ip hc_default); ip1 (hc_ip hc_default); ip2 (hc_ip hc_default); ip3 (hc_ip hc_default)] /\
  (* and so is the default retry time *)
  exists r, rt_default true = Some r /\ fld (s_chip s1) RTR 2 = rt_to_register r.
Proof.
  intros R. unfold initialize in R. apply run_init in R as (t & c & h' & M1 & C1 & _ & _ & R & ->).
  cbn [dhcp_new refresh run] in R. injection R as <- <-.
  split; [exact C1|]. split; [rewrite M1; reflexivity|].
  repeat split; try (unfold fld, com_list; rewrite !C1 by (vm_compute; discriminate); reflexivity).
  eexists. split; [reflexivity|]. unfold fld, com_list; rewrite !C1 by (vm_compute; discriminate); reflexivity.
Qed.
Print Assumptions C107_defaults_partial.
Theorem C107_defaults_refuted e chk mc s d s1 : run e (initialize chk mc mode_default) s = (Done (Ok d), s1) ->
  com_reset MR = x00 /\ com (s_chip s1) MR <> com_reset MR.
Proof. intros R. split; [reflexivity|]. destruct (C107_defaults_partial _ _ _ _ _ _ R) as (_ & -> & _). discriminate. Qed.
Print Assumptions C107_defaults_refuted.
Example C107_case : exists d s1, run quiet (initialize true (Mac x02 x00 x00 x00 x00 x01) mode_default) sys0 = (Done (Ok d), s1).
Proof. do 2 eexists. apply run_snd. vm_compute. reflexivity. Qed.

(** ** C108.  Full statement: initialize_manual, which is not told a gateway, sets one that is
    another host of the same subnet.  It always is of the same subnet (255.255.255.0); it is this
    device itself when its address ends in 1. *)
Theorem C108_gateway_partial e chk mc ip m s d s1 : run e (initialize_manual chk mc ip m) s = (Done (Ok d), s1) ->
  fld (s_chip s1) SUBR 4 = [xff; xff; xff; x00] /\
  (exists g, fld (s_chip s1) GAR 4 = [ip0 ip; ip1 ip; ip2 ip; g] /\ b2n g <> 0 /\ b2n g <> 255) /\
  (ip3 ip <> x01 -> fld (s_chip s1) GAR 4 <> fld (s_chip s1) SIPR 4).
Proof.
  intros R. destruct (Properties_chip.init_manual _ _ _ _ _ _ _ _ _ _ R) as (_ & _ & G & S & _ & I4 & _).
  rewrite G, S, I4. split; [reflexivity|]. split.
  - eexists. split; [reflexivity|]. split; discriminate.
  - intros H E. injection E as E. now apply H.
Qed.
Print Assumptions C108_gateway_partial.
Theorem C108_gateway_refuted :
  (forall e chk mc ip m s d s1, run e (initialize_manual chk mc ip m) s = (Done (Ok d), s1) -> ip3 ip = x01 ->
     fld (s_chip s1) GAR 4 = fld (s_chip s1) SIPR 4) /\
  exists d s1, run quiet (initialize_manual true (Mac x02 x00 x00 x00 x00 x01) (Ip4 xc0 xa8 x00 x01) mode_default) sys0 = (Done (Ok d), s1) /\
    fld (s_chip s1) SIPR 4 = [xc0; xa8; x00; x01] /\ fld (s_chip s1) GAR 4 = [xc0; xa8; x00; x01].
Proof.
  split.
  - intros e chk mc ip m s d s1 R E. destruct (Properties_chip.init_manual _ _ _ _ _ _ _ _ _ _ R) as (_ & _ & G & _ & _ & I4 & _).
    rewrite G, I4. cbn [ip0 ip1 ip2 ip3]. now rewrite E.
  - do 2 eexists. split; [apply run_snd; vm_compute; reflexivity|]. split; vm_compute; reflexivity.
Qed.
Print Assumptions C108_gateway_refuted.
(** the address of the doc comment, uninitialized_device.rs:65 *)
Example C108_case : exists d s1,
  run quiet (initialize_manual true (Mac x02 x00 x00 x00 x00 x01) (Ip4 xc0 xa8 x00 xc9) mode_default) sys0 = (Done (Ok d), s1) /\
  fld (s_chip s1) SIPR 4 = [xc0; xa8; x00; xc9] /\ fld (s_chip s1) GAR 4 = [xc0; xa8; x00; x01].
Proof. do 2 eexists. split; [apply run_snd; vm_compute; reflexivity|]. split; vm_compute; reflexivity. Qed.
