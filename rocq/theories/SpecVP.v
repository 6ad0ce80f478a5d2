(** Specification of the validity period formats (3GPP TS 23.040 section
    9.2.3.12), durations in nanoseconds. *)
From Coq Require Import ZArith Bool List.
Import ListNotations.
From Verif Require Import GoBase SpecTime GoTime ValidityPeriod.
Open Scope Z_scope.

Definition minutes (n : Z) : Z := n * 60 * 1000000000.
Definition hours (n : Z) : Z := minutes (60 * n).
Definition days (n : Z) : Z := hours (24 * n).
Definition weeks (n : Z) : Z := days (7 * n).

(** The meaning of the octet of a relative validity period. *)
Inductive relative_vp : Z -> Z -> Prop :=
| rv_5min o : 0 <= o <= 143 -> relative_vp o (minutes (5 * (o + 1)))
| rv_30min o : 144 <= o <= 167 -> relative_vp o (hours 12 + minutes (30 * (o - 143)))
| rv_day o : 168 <= o <= 196 -> relative_vp o (days (o - 166))
| rv_week o : 197 <= o <= 255 -> relative_vp o (weeks (o - 192)).

(** The durations the enhanced format can express, by the low three bits of its
    functionality indicator: none, relative, seconds, and hh:mm:ss.  The
    relative octet 0 (five minutes) is left out, see C24. *)
Inductive enhanced_value (efi : Z) : Z -> Prop :=
| ev_none : efi mod 8 = 0 -> enhanced_value efi 0
| ev_rel o d : efi mod 8 = 1 -> relative_vp o d -> 1 <= o -> enhanced_value efi d
| ev_sec s : efi mod 8 = 2 -> 0 <= s <= 255 -> enhanced_value efi (s * 1000000000)
| ev_hms h m s : efi mod 8 = 3 -> 0 <= h <= 99 -> 0 <= m <= 59 -> 0 <= s <= 59 ->
    enhanced_value efi (h * 3600000000000 + m * 60000000000 + s * 1000000000).

(** The values each format can express (with the same exception). *)
Inductive vp_value : validity -> Prop :=
| vv_none : vp_value vp_zero
| vv_abs t q : t_nsec t = 0 -> 0 <= t_unix t + t_off t < century -> t_off t = 900 * q ->
    -79 <= q <= 79 -> vp_value (vp_absolute t)
| vv_rel o d : relative_vp o d -> 1 <= o -> vp_value (vp_relative d)
| vv_enh efi d : is_byte efi -> enhanced_value efi d -> vp_value (vp_enhanced d efi).
