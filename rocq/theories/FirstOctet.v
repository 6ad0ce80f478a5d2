(** Model of encoding/tpdu/firstoctet.go and
    encoding/tpdu/parameterindicator.go. *)
From Verif Require Import GoBase Dcs.

(** encoding/tpdu/firstoctet.go:74-128, the bit field constants. *)
Definition FoMTIMask : Z := 3.
Definition FoMMS : Z := 4.
Definition FoRD : Z := 4.
Definition FoLP : Z := 8.
Definition FoVPFMask : Z := 24.
Definition FoVPFShift : Z := 3.
Definition FoSRI : Z := 32.
Definition FoSRR : Z := 32.
Definition FoSRQ : Z := 32.
Definition FoUDHI : Z := 64.
Definition FoRP : Z := 128.

(** encoding/tpdu/firstoctet.go:11-13 [LP], 16-18 [MMS], 26-28 [RD],
    31-33 [RP], 36-38 [SRI], 41-43 [SRR], 46-48 [SRQ], 70-72 [UDHI]. *)
Definition fo_lp (f : Z) : bool := negb (Z.land f FoLP =? 0).
Definition fo_mms (f : Z) : bool := negb (Z.land f FoMMS =? 0).
Definition fo_rd (f : Z) : bool := negb (Z.land f FoRD =? 0).
Definition fo_rp (f : Z) : bool := negb (Z.land f FoRP =? 0).
Definition fo_sri (f : Z) : bool := negb (Z.land f FoSRI =? 0).
Definition fo_srr (f : Z) : bool := negb (Z.land f FoSRR =? 0).
Definition fo_srq (f : Z) : bool := negb (Z.land f FoSRQ =? 0).
Definition fo_udhi (f : Z) : bool := negb (Z.land f FoUDHI =? 0).

(** encoding/tpdu/firstoctet.go:21-23 [MTI]. *)
Definition fo_mti (f : Z) : Z := Z.land f FoMTIMask.

(** encoding/tpdu/firstoctet.go:51-53 [VPF]. *)
Definition fo_vpf (f : Z) : Z := Z.shiftr (Z.land f FoVPFMask) FoVPFShift.

(** encoding/tpdu/firstoctet.go:56-60 [WithMTI]. *)
Definition fo_with_mti (f mti : Z) : Z := Z.lor (andnot8 f FoMTIMask) (to_byte mti).

(** encoding/tpdu/firstoctet.go:63-67 [WithVPF].  ValidityPeriodFormat is a
    byte, so the shift keeps 8 bits. *)
Definition fo_with_vpf (f vpf : Z) : Z :=
  Z.lor (andnot8 f FoVPFMask) (shl8 vpf FoVPFShift).

(** encoding/tpdu/parameterindicator.go:44-55. *)
Definition PiPID : Z := 1.
Definition PiDCS : Z := 2.
Definition PiUDL : Z := 4.

(** encoding/tpdu/parameterindicator.go:13-25 [PI.PID], [PI.DCS], [PI.UDL]. *)
Definition pi_pid (p : Z) : bool := negb (Z.land p PiPID =? 0).
Definition pi_dcs (p : Z) : bool := negb (Z.land p PiDCS =? 0).
Definition pi_udl (p : Z) : bool := negb (Z.land p PiUDL =? 0).
