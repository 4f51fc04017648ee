(** AV1 Annex B length-delimited streams, as bit strings (independent of the model). *)
From Coq Require Import ZArith List Bool.
From Verif Require Import SpecBits.
Import ListNotations.
Open Scope Z_scope.

(** A unit is its body preceded by the body's byte count as leb128 in k bytes. *)
Definition enc_unit (k : nat) (body : list bool) : list bool :=
  enc_leb128 k (Z.of_nat (length body) / 8) ++ body.
Definition valid_unit (k : nat) (body : list bool) : Prop :=
  (1 <= k <= 8)%nat /\ exists n, length body = (8 * n)%nat /\ Z.of_nat n < 2 ^ (7 * Z.of_nat k).

(** OBUs: length field size and bits.  Frame unit: length field size and OBUs. Temporal unit likewise. *)
Definition obu_u := (nat * list bool)%type.
Definition frame_u := (nat * list obu_u)%type.
Definition temporal_u := (nat * list frame_u)%type.
Definition enc_obus (l : list obu_u) : list bool := flat_map (fun u => enc_unit (fst u) (snd u)) l.
Definition enc_frames (l : list frame_u) : list bool := flat_map (fun u => enc_unit (fst u) (enc_obus (snd u))) l.
Definition enc_stream (l : list temporal_u) : list bool := flat_map (fun u => enc_unit (fst u) (enc_frames (snd u))) l.
Definition valid_obus (l : list obu_u) : Prop := Forall (fun u => valid_unit (fst u) (snd u)) l.
Definition valid_frames (l : list frame_u) : Prop :=
  Forall (fun u => valid_unit (fst u) (enc_obus (snd u)) /\ valid_obus (snd u)) l.
Definition valid_stream (l : list temporal_u) : Prop :=
  Forall (fun u => valid_unit (fst u) (enc_frames (snd u)) /\ valid_frames (snd u)) l.
Definition all_obus (l : list temporal_u) : list obu_u := flat_map (fun t => flat_map snd (snd t)) l.
