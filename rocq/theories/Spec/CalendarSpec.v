(** The Gregorian calendar, and numbers written with commas. *)
From Verif.Model Require Import Py Text.

Definition leap (y : Z) : bool := (y mod 4 =? 0) && (negb (y mod 100 =? 0) || (y mod 400 =? 0)).
Definition month_length (y m : Z) : Z :=
  if m =? 2 then (if leap y then 29 else 28)
  else if (m =? 4) || (m =? 6) || (m =? 9) || (m =? 11) then 30 else 31.
Definition next_day (x : Z * Z * Z) : Z * Z * Z :=
  let '(y, m, d) := x in
  if d <? month_length y m then (y, m, d + 1) else if m <? 12 then (y, m + 1, 1) else (y + 1, 1, 1).
(** The date so many days after 1970-01-01 *)
Definition date_of (n : nat) : Z * Z * Z := Nat.iter n next_day (1970, 1, 1).

Definition two_digits (n : Z) : pystr := [48 + n / 10; 48 + n mod 10].
Definition four_digits (n : Z) : pystr := two_digits (n / 100) ++ two_digits (n mod 100).
(** The time so many seconds after the beginning of 1970: a date, hours, minutes and seconds *)
Definition writes_time (s : pystr) (t : Z) : Prop :=
  exists days y m d h mi sec, t = 86400 * Z.of_nat days + 3600 * h + 60 * mi + sec /\ 0 <= h < 24 /\ 0 <= mi < 60 /\ 0 <= sec < 60 /\
    date_of days = (y, m, d) /\
    s = four_digits y ++ txt "-" ++ two_digits m ++ txt "-" ++ two_digits d ++ txt " " ++ two_digits h ++ txt ":" ++ two_digits mi ++ txt ":" ++ two_digits sec.

(** A number in groups of three digits *)
Definition digit_value (s : pystr) : Z := fold_left (fun a c => 10 * a + (c - 48)) s 0.
Definition writes_grouped (s : pystr) (n : Z) : Prop :=
  exists g gs, s = join (txt ",") (g :: gs) /\ 1 <= zlen g <= 3 /\ Forall (fun x => zlen x = 3) gs /\
    Forall (fun c => 48 <= c <= 57) (concat (g :: gs)) /\ hd 0 g <> 48 /\ digit_value (concat (g :: gs)) = n.
