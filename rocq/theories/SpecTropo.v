(** SpecTropo: the tropospheric delay of the Bernese GNSS software manual (Saastamoinen with the standard
    atmosphere of Berg, 1948): temperature in kelvin, humidity in percent, delay in metres at zenith angle z *)
From Coq Require Import Reals.
Local Open Scope R_scope.

Definition std_temperature (h : R) : R := 273.15 + 18 - 0.0065 * h.
Definition std_pressure (h : R) : R := 1013.25 * Rpower (1 - 0.0000226 * h) 5.225.
Definition std_humidity (h : R) : R := 50 * exp (- 0.0006396 * h).
Definition std_vapour (h : R) : R :=
  let T := std_temperature h in std_humidity h / 100 * exp (- 37.2465 + 0.213166 * T - 0.000256908 * (T * T)).
Definition saastamoinen (h z : R) : R :=
  0.002277 / cos z * (std_pressure h + (1255 / std_temperature h + 0.05) * std_vapour h - tan z * tan z).
(** the part of it without water vapour *)
Definition saastamoinen_dry (h z : R) : R := 0.002277 / cos z * (std_pressure h - tan z * tan z).
(** 80 degrees *)
Definition mask_angle : R := 80 * PI / 180.
