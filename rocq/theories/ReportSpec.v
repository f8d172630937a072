(** What the report of a thermostat must say, in terms of the bytes of its two answers; texts of the modem. *)
From Coq Require Import ZArith List Bool String.
From Verif Require Import GoBase GoText LinkText Plm DisplaySpec.
Import ListNotations.
Open Scope Z_scope.

(** Three bytes of an address as text. *)
Definition dotted (a2 a1 a0 : Z) : list Z := fmt_02x a2 ++ zs "." ++ fmt_02x a1 ++ zs "." ++ fmt_02x a0.
(** Pieces with a separator between them. *)
Fixpoint joined (sep : list Z) (l : list (list Z)) : list Z :=
  match l with [] => [] | [a] => a | a :: t => a ++ sep ++ joined sep t end.
(** A description of a modem that fits its fields. *)
Definition info_ok (i : info) : Prop := 0 <= i_addr i < 16777216 /\ is_byte (i_dc0 i) /\ is_byte (i_dc1 i) /\ is_byte (i_fw i).

(** An answer with the first or second set of data. *)
Definition data_set (k : Z) (d : list Z) : Prop := (14 <= List.length d)%nat /\ bytes_ok d /\ nth 2 d 0 = k.
(** The temperature in tenths of a degree Celsius, and whether the thermostat shows Celsius. *)
Definition tenths (d0 : list Z) : Z := 256 * nth 13 d0 0 + nth 3 d0 0.
Definition celsius (d0 : list Z) : bool := Z.testbit (nth 12 d0 0) 3.
(** [n] tenths of a degree of the unit shown: in Fahrenheit the nearest to the exact value 9/5 t + 320, which never lies halfway. *)
Definition shown_tenths (d0 : list Z) (n : Z) : Prop :=
  if celsius d0 then n = tenths d0 else Z.abs (5 * n - (9 * tenths d0 + 5 * 320)) <= 2.
(** The name of a mode. *)
Definition mode_text (m : Z) (s : list Z) : Prop :=
  (exists n, In (m, n) mode_names /\ s = zs n) \/ (9 <= m /\ s = zs "ThermostatMode(" ++ fmt_d_byte m ++ zs ")").
Definition yes_no (b : bool) : list Z := if b then zs "true" else zs "false".
(** The text; [deg] is the number shown. *)
Definition report_lines (deg mode : list Z) (d0 d1 : list Z) : list (list Z) :=
  let unit := [194; 176; if celsius d0 then 67 else 70] in
  let f i := fmt_d_byte (nth i d0 0) in
  let s i := fmt_d_byte (nth i d1 0) in
  [ zs "                Temp: " ++ deg ++ zs " " ++ unit
  ; zs "            Humidity: " ++ f 4%nat ++ zs " %"
  ; zs "          Temp Offset: " ++ f 5%nat
  ; zs "      Humidity Offset: " ++ f 6%nat
  ; zs "                 Mode: " ++ mode
  ; zs "             Fan Mode: " ++ f 8%nat
  ; zs "    Backlight Seconds: " ++ f 9%nat
  ; zs "   Hysteresis Minutes: " ++ f 10%nat
  ; zs " Energy Set Backpoint: " ++ s 9%nat
  ; zs "   Temperature Format: " ++ unit
  ; zs "         Humidity Low: " ++ s 4%nat
  ; zs "        Humidity High: " ++ s 3%nat
  ; zs "                  Rev: " ++ s 5%nat
  ; zs "       Cool Set Point: " ++ s 6%nat
  ; zs "       Heat Set Point: " ++ s 7%nat
  ; zs "            RF Offset: " ++ s 8%nat
  ; zs " Energy Set Backpoint: " ++ s 9%nat
  ; zs " External Temp Offset: " ++ s 10%nat
  ; zs "Status Report Enabled: " ++ yes_no (nth 11 d1 0 =? 1)
  ; zs "       External Power: " ++ yes_no (nth 12 d1 0 =? 1)
  ; zs "        External Temp: " ++ yes_no (nth 13 d1 0 =? 2) ].
(** A number of tenths as a decimal text: whole degrees without leading zeros, a point, one digit. *)
Definition decimal_text (n : Z) (s : list Z) : Prop :=
  exists whole c, s = whole ++ [46; c] /\ Forall (fun x => 48 <= x <= 57) (c :: whole) /\ (whole = [48] \/ 49 <= hd 0 whole) /\
    fold_left (fun a x => 10 * a + (x - 48)) (whole ++ [c]) 0 = n.
(** What two pairs of answers must have in common to give the same text. *)
Definition report_alike (d0 d1 e0 e1 : list Z) : Prop :=
  tenths d0 = tenths e0 /\ celsius d0 = celsius e0 /\ firstn 7 (skipn 4 d0) = firstn 7 (skipn 4 e0) /\ firstn 8 (skipn 3 d1) = firstn 8 (skipn 3 e1) /\
  (nth 11 d1 0 = 1 <-> nth 11 e1 0 = 1) /\ (nth 12 d1 0 = 1 <-> nth 12 e1 0 = 1) /\ (nth 13 d1 0 = 2 <-> nth 13 e1 0 = 2).
