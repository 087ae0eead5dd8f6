(** C112: the operation mode of the PHY. *)
From Verif Require Import Phy Cases Datasheet Dotted.
From Verif Require LifeFacts.

(** register.rs:90-107: the variant marked [#[default]] *)
Definition phy_operation_default : PhyOperationMode := Auto.

(** ** C112.  However the chip was left by whoever had it before, every phy_config that a device
    answers says that the PHY is in the default operation mode: [operation_mode] does not abort
    (C09 says for which bytes it does). *)
Theorem C112_phy e chk fuel ops s l outs s' p :
  run e (run_life chk fuel life_new ops) s = (Done (l, outs), s') -> In (LOut (RDevice (DPhy (Ok p)))) outs ->
  phy_operation_mode p = Some phy_operation_default.
Proof.
  intros R. apply (run_life_reads e chk fuel ops life_new s l outs s'); [split; [intros ? ? []|exact Logic.I]| |exact R]. intros H. now elim H.
Qed.
Print Assumptions C112_phy.

(** From the first initialisation that succeeds on, whatever the program does and however it ends,
    the operation mode in the register is the default. *)
Theorem C112_register e chk fuel ops0 s0 l0 outs0 s ops :
  run e (run_life chk fuel life_new ops0) s0 = (Done (l0, outs0), s) -> In (LInited (Ok tt)) outs0 ->
  let v := b2n (com (s_chip (snd (run e (run_life chk fuel l0 ops) s))) PHYCFGR) in
  (v / 8) mod 8 = phy_mode_u8 phy_operation_default / 8.
Proof.
  intros R H. assert (K : life_ok life_new) by (split; [intros ? ? []|exact Logic.I]). cbv zeta.
  apply run_life_phy; [exact (run_life_ok _ _ _ _ _ _ _ _ K R)|exact (run_life_inited _ _ _ _ _ _ _ _ _ K R H)].
Qed.
Print Assumptions C112_register.

(** a chip left with operation mode 101: before the initialisation decoding its register aborts,
    afterwards, the cable having been pulled and plugged in again, it does not *)
Definition used_chip : sys := mkSys (set_com chip0 (fun x => if x =? PHYCFGR then xaf else com chip0 x)) 0 0.
Definition phy_life : list lop :=
  [LInit (IManual (Mac x02 x00 x00 x00 x00 x01) (Ip4 xc0 xa8 x00 x02)) mode_default; LCall (OpDevice QPhyConfig); LSleep; LWake 0; LCall (OpDevice QPhyConfig)].
Example C112_case :
  phy_operation_mode (mkPhyConfig (com (s_chip used_chip) PHYCFGR)) = None /\
  exists l s', run (script [(3%nat, [EvLink x06]); (22%nat, [EvLink x07])]) (run_life true 5 life_new phy_life) used_chip =
    (Done (l, [LInited (Ok tt); LOut (RDevice (DPhy (Ok (mkPhyConfig xbe)))); LMade; LMade; LOut (RDevice (DPhy (Ok (mkPhyConfig xbf))))]), s').
Proof. split; [reflexivity|]. eexists. eexists. apply run_snd. vm_compute. reflexivity. Qed.
