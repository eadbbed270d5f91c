(** * SpecFrame: packets on the wire and the protocols' command tables, independent of the
    server's code. *)
From Verif Require Import Base SpecWire.

(** A packet: four bytes total length, four bytes command, four bytes sequence, body. *)
Definition wire_of (cmd seq : Z) (body : bytes) : bytes :=
  be 4 (12 + zlen body) ++ be 4 cmd ++ be 4 seq ++ body.

(** Commands of CMPP 2/3 (GB/China Mobile), SGIP 1.2 and SMGP 3.0; a response has the top bit set. *)
Definition cmpp_requests : list Z := [1; 2; 4; 5; 6; 7; 8; 9].
Definition sgip_requests : list Z := [1; 2; 3; 4; 5].
Definition smgp_requests : list Z := [1; 2; 3; 4; 6].
Definition with_responses (l : list Z) : list Z := l ++ map (fun c => 2 ^ 31 + c) l.
