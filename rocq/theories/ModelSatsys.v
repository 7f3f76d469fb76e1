(** ModelSatsys: /repo/src/satsys.hpp, satsys.cpp. *)
From Verif Require Import Base.

(** satsys.hpp:53-62 enum class SATELLITE_SYSTEM. *)
Inductive satsys : Type :=
| Gps | Glonass | Sbas | Galileo | Beidou | Qzss | Irnss | Mixed.

(** satsys.hpp:53: enum comparison (==) *)
Definition satsys_eqb (a b : satsys) : bool :=
  match a, b with
  | Gps, Gps | Glonass, Glonass | Sbas, Sbas | Galileo, Galileo
  | Beidou, Beidou | Qzss, Qzss | Irnss, Irnss | Mixed, Mixed => true
  | _, _ => false
  end.

(** satsys.cpp:92-115 satsys_to_char; identifiers from satsys.hpp:76-228. *)
Definition satsys_to_char (s : satsys) : ascii :=
  match s with
  | Gps => "G"%char
  | Glonass => "R"%char
  | Sbas => "S"%char
  | Galileo => "E"%char
  | Beidou => "C"%char
  | Qzss => "J"%char
  | Irnss => "I"%char
  | Mixed => "M"%char
  end.

(** satsys.cpp:124-148 char_to_satsys; throws std::runtime_error on other chars. *)
Definition char_to_satsys (c : ascii) : outcome satsys :=
  if ceqb c "G"%char then Val Gps
  else if ceqb c "R"%char then Val Glonass
  else if ceqb c "E"%char then Val Galileo
  else if ceqb c "S"%char then Val Sbas
  else if ceqb c "J"%char then Val Qzss
  else if ceqb c "C"%char then Val Beidou
  else if ceqb c "I"%char then Val Irnss
  else if ceqb c "M"%char then Val Mixed
  else Exn.

(** satsys.cpp:4-84 the static frequency maps (band, frequency in MHz) as written; [part_frequency] takes the nearest double. *)
Definition frequency_map (s : satsys) : list (Z * Q) :=
  match s with
  | Gps => [(1%Z, 157542 # 100); (2%Z, 122760 # 100); (5%Z, 117645 # 100)]
  | Glonass => [(1%Z, 1602000 # 1000); (2%Z, 1246000 # 1000); (3%Z, 1202025 # 1000)]
  | Galileo => [(1%Z, 1575420 # 1000); (5%Z, 1176450 # 1000); (7%Z, 1207140 # 1000);
                (8%Z, 1191795 # 1000); (6%Z, 1278750 # 1000)]
  | Sbas => [(1%Z, 157542 # 100); (5%Z, 117645 # 100)]
  | Qzss => [(1%Z, 157542 # 100); (2%Z, 122760 # 100); (5%Z, 117645 # 100); (6%Z, 127875 # 100)]
  | Beidou => [(1%Z, 1561098 # 1000); (2%Z, 1207140 # 1000); (3%Z, 1268520 # 1000)]
  | Irnss => [(5%Z, 1176450 # 1000); (9%Z, 2492028 # 1000)]
  | Mixed => []
  end.

Fixpoint map_at (l : list (Z * Q)) (k : Z) : outcome Q :=
  match l with
  | [] => Exn
  | (b, f) :: r => if (b =? k)%Z then Val f else map_at r k
  end.

(** satsys.hpp:91,114,130,155,171,187,213 band2frequency: frequency_map.at(band),
    std::map::at throws std::out_of_range. *)
Definition band2frequency (s : satsys) (band : Z) : outcome Q := map_at (frequency_map s) band.
