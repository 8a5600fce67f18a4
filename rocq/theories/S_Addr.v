(** * S_Addr: IPv6 address texts (RFC 4291, section 2.2, forms 1 and 2) and hexadecimal texts (specification, C99). *)
From Coq Require Import String.
From Verif Require Import Py S_Codec.

(** a hexadecimal digit, upper or lower case *)
Definition hex_char (c v : Z) : Prop := (48 <= c <= 57 /\ v = c - 48) \/ (65 <= c <= 70 /\ v = c - 55) \/ (97 <= c <= 102 /\ v = c - 87).
Inductive hex_num : str -> Z -> Prop :=
| hn_one c v : hex_char c v -> hex_num [c] v
| hn_more s n c v : hex_num s n -> hex_char c v -> hex_num (s ++ [c]) (n * 16 + v).
(** a group: one to four digits, two bytes *)
Definition group (s : str) (d : bytes) : Prop := exists n, hex_num s n /\ zlen s <= 4 /\ d = [n / 256; n mod 256].
(** groups separated by colons; [k] of them *)
Inductive groups : nat -> str -> bytes -> Prop :=
| gr_one s d : group s d -> groups 1 s d
| gr_more k s d s' d' : group s d -> groups k s' d' -> groups (S k) (s ++ [58] ++ s') (d ++ d').
Definition groups0 (k : nat) (s : str) (d : bytes) : Prop := groups k s d \/ (k = O /\ s = [] /\ d = []).
(** the sixteen bytes an IPv6 address text denotes; "::" stands for one or more groups of zeros *)
Inductive ipv6_denotes : str -> bytes -> Prop :=
| v6_full s d : groups 8 s d -> ipv6_denotes s d
| v6_short k1 k2 s1 d1 s2 d2 : groups0 k1 s1 d1 -> groups0 k2 s2 d2 -> (k1 + k2 <= 7)%nat ->
    ipv6_denotes (s1 ++ lit "::"%string ++ s2) (d1 ++ repeat 0 (2 * (8 - (k1 + k2))) ++ d2).

(** bytes as pairs of upper case digits *)
Definition upper_char (c v : Z) : Prop := (48 <= c <= 57 /\ v = c - 48) \/ (65 <= c <= 70 /\ v = c - 55).
Inductive pairs : str -> bytes -> Prop :=
| pr_nil : pairs [] []
| pr_cons a b x y s d : upper_char a x -> upper_char b y -> pairs s d -> pairs (a :: b :: s) (x * 16 + y :: d).
(** the text without its colons *)
Inductive without_colons : str -> str -> Prop :=
| wc_nil : without_colons [] []
| wc_colon s r : without_colons s r -> without_colons (58 :: s) r
| wc_other c s r : c <> 58 -> without_colons s r -> without_colons (c :: s) (c :: r).
(** a group written with four upper case digits *)
Definition full_group (s : str) (d : bytes) : Prop := pairs s d /\ zlen d = 2.
Inductive full_groups : nat -> str -> bytes -> Prop :=
| fg_one s d : full_group s d -> full_groups 1 s d
| fg_more k s d s' d' : full_group s d -> full_groups k s' d' -> full_groups (S k) (s ++ [58] ++ s') (d ++ d').
