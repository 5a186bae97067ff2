(** Speed scaling (include/dcc/utility.hpp, include/dcc/speed.hpp). *)
From Verif Require Import Prelude.

(** enum Speed, speed.hpp:17-20 *)
Definition EStop : Z := -1.
Definition Stop : Z := 0.

(** ztl::lerp<int32_t>(x, x0, x1, y0, y1); library not in the repository. Taken
    as truncating linear interpolation, which reproduces the values in
    tests/rx/*speed*.cpp. *)
Definition lerp (x x0 x1 y0 y1 : Z) : Z :=
  y0 + Z.quot ((x - x0) * (y1 - y0)) (x1 - x0).

(** scale_speed<Scale>, utility.hpp:72-85. [scale] is 14, 28 or 126. *)
Definition scale_speed (scale speed : Z) : Z :=
  if speed =? 0 then 0
  else
    let max := 255 in
    let min := lerp 1 0 126 0 max in
    if speed =? 1 then min
    else if (scale =? 14) || (scale =? 28) then lerp speed 1 scale min max
    else lerp speed 0 scale 0 max.
