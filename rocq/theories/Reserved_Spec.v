(** Specification vocabulary for the keys reserved for the index (C83). *)
From Verif Require Export Pad_Spec.

(** A str key that starts with "index". *)
Definition reserved_key (k : ikey) : Prop := kisstr k = true /\ starts_index (ktext k) = true.

(** The list without its [i]th element. *)
Definition without (i : nat) (l : list string) : list string := firstn i l ++ skipn (S i) l.

(** The keys under which the blocks of the index are kept: its [i]th key
    block and the name block of the key [k]. *)
Definition key_slot (i : nat) : string := ("index_key_" ++ str_of_Z (Z.of_nat i))%string.
Definition name_slot (hash : bytes -> string) (k : string) : string := ("index_name_" ++ hash k)%string.
