(** * Specification vocabulary for C12. *)
From Verif Require Import Base NameModel.

(** The alphabet of escaped text: letters, digits, + - . _ and the % sign. *)
Definition uri_char (x : Z) : Prop :=
  48 <= x <= 57 \/ 65 <= x <= 90 \/ 97 <= x <= 122 \/ In x [43; 45; 46; 95; 37].

(** A generic component, or one with a type code that has no type of its own. *)
Definition plain_comp (c : comp) : Prop :=
  bytes_ok (c_value c) /\
  (c_type c = 8 /\ c_other c = -1
   \/ c_type c = 32767 /\ 0 <= c_other c /\ c_other c <> 1 /\ c_other c <> 2 /\ c_other c <> 8).

(** A 32-byte implicit or parameters digest component. *)
Definition digest_comp (c : comp) : Prop :=
  bytes_ok (c_value c) /\ zlen (c_value c) = 32 /\ c_other c = -1 /\ (c_type c = 1 \/ c_type c = 2).
