(** The four bytes of an address in the order they go on the wire (and the six of a MAC address); for use in
    statements, where [octets] is a function of the code. *)
From Verif Require Import Net.
Import ListNotations.
Definition dotted (i : ipv4) : list Byte.byte := [ip0 i; ip1 i; ip2 i; ip3 i].
Definition six (m : mac) : list Byte.byte := [m0 m; m1 m; m2 m; m3 m; m4 m; m5 m].
