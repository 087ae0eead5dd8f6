(** The part of the W5500 register map (WIZnet W5500 datasheet v1.1.0; most of it is also
    quoted in the doc comments of /repo/src/register.rs) that the specifications refer to.
    Written independently of Registers.v: the theorems tie the two together. *)
From Coq Require Import NArith.
Open Scope N_scope.

(** block select bits: 0 = common registers; socket n has 4n+1, 4n+2, 4n+3 *)
Definition BSB_COMMON : N := 0.
Definition BSB_REG (n : N) : N := 4 * n + 1.
Definition BSB_TX (n : N) : N := 4 * n + 2.
Definition BSB_RX (n : N) : N := 4 * n + 3.

(** common registers *)
Definition MR : N := 0x00.
Definition GAR : N := 0x01.
Definition SUBR : N := 0x05.
Definition SHAR : N := 0x09.
Definition SIPR : N := 0x0F.
Definition SIMR : N := 0x18.
Definition RTR : N := 0x19.
Definition RCR : N := 0x1B.
Definition PHYCFGR : N := 0x2E.
Definition VERSIONR : N := 0x39.

(** socket registers *)
Definition Sn_MR : N := 0x00.
Definition Sn_CR : N := 0x01.
Definition Sn_IR : N := 0x02.
Definition Sn_SR : N := 0x03.
Definition Sn_PORT : N := 0x04.
Definition Sn_DIPR : N := 0x0C.
Definition Sn_DPORT : N := 0x10.
Definition Sn_RXBUF_SIZE : N := 0x1E.
Definition Sn_TXBUF_SIZE : N := 0x1F.
Definition Sn_TX_FSR : N := 0x20.
Definition Sn_TX_RD : N := 0x22.
Definition Sn_TX_WR : N := 0x24.
Definition Sn_RX_RSR : N := 0x26.
Definition Sn_RX_RD : N := 0x28.
Definition Sn_RX_WR : N := 0x2A.
Definition Sn_IMR : N := 0x2C.

(** Sn_CR commands *)
Definition CR_OPEN : N := 0x01.
Definition CR_LISTEN : N := 0x02.
Definition CR_CONNECT : N := 0x04.
Definition CR_DISCON : N := 0x08.
Definition CR_CLOSE : N := 0x10.
Definition CR_SEND : N := 0x20.
Definition CR_RECV : N := 0x40.

(** Sn_IR bits *)
Definition IR_CON : N := 0x01.
Definition IR_DISCON : N := 0x02.
Definition IR_RECV : N := 0x04.
Definition IR_TIMEOUT : N := 0x08.
Definition IR_SENDOK : N := 0x10.

(** Sn_SR values *)
Definition SOCK_CLOSED : N := 0x00.
Definition SOCK_INIT : N := 0x13.
Definition SOCK_LISTEN : N := 0x14.
Definition SOCK_SYNSENT : N := 0x15.
Definition SOCK_SYNRECV : N := 0x16.
Definition SOCK_ESTABLISHED : N := 0x17.
Definition SOCK_FIN_WAIT : N := 0x18.
Definition SOCK_CLOSING : N := 0x1A.
Definition SOCK_TIME_WAIT : N := 0x1B.
Definition SOCK_CLOSE_WAIT : N := 0x1C.
Definition SOCK_LAST_ACK : N := 0x1D.
Definition SOCK_UDP : N := 0x22.
Definition SOCK_MACRAW : N := 0x42.

(** Sn_MR protocol values and the MACRAW MAC filter bit *)
Definition MR_CLOSE : N := 0x00.
Definition MR_TCP : N := 0x01.
Definition MR_UDP : N := 0x02.
Definition MR_MACRAW : N := 0x04.
Definition MR_MFEN : N := 0x80.
