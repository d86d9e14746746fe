(** The descriptor of the EGTS+ messages that is compiled into the library
    (libs/egts/egts_sr_egtsplus_data.go): its bytes, and the gzip reader for it. *)
From Coq Require Import NArith ZArith String List Bool.
From Verif Require Import GoBase.
Import ListNotations.
Local Open Scope string_scope.
Open Scope N_scope.

(** ** Reading gzip, after RFC 1951 and RFC 1952 *)
Fixpoint byte_bits (n : nat) (b : N) : list bool :=
  match n with O => [] | S k => N.odd b :: byte_bits k (N.div2 b) end.
Definition bits_of (l : bytes) : list bool := flat_map (byte_bits 8) l.

(** [n] bits as a number, the least significant first. *)
Fixpoint take (n : nat) (s : list bool) : option (N * list bool) :=
  match n, s with
  | O, _ => Some (0, s)
  | S k, b :: r => match take k r with Some (v, r') => Some ((if b then 1 else 0) + 2 * v, r') | None => None end
  | S _, [] => None
  end.

(** A code: for every length from 1 on the symbols of that length in their order. *)
Definition code : Type := list (list N).
Fixpoint with_length (k : N) (i : N) (ls : list N) : list N :=
  match ls with [] => [] | l :: r => if l =? k then i :: with_length k (i + 1) r else with_length k (i + 1) r end.
Definition code_of (lengths : list N) : code := map (fun k => with_length (N.of_nat k) 0 lengths) (seq 1 15).

(** One symbol: [c] is the code read so far, [first] the first code of this length. *)
Fixpoint symbol (h : code) (c first : N) (s : list bool) : option (N * list bool) :=
  match h, s with
  | syms :: h', b :: r =>
      let c := 2 * c + (if b then 1 else 0) in
      let first := 2 * first in
      match (if first <=? c then nth_error syms (N.to_nat (c - first)) else None) with
      | Some x => Some (x, r)
      | None => symbol h' c (first + N.of_nat (length syms)) r
      end
  | _, _ => None
  end.

(** Symbols 257 and up: base and number of extra bits of the lengths; the same for distances. *)
Definition len_table : list (N * N) :=
  [(3, 0); (4, 0); (5, 0); (6, 0); (7, 0); (8, 0); (9, 0); (10, 0); (11, 1); (13, 1); (15, 1); (17, 1); (19, 2); (23, 2);
   (27, 2); (31, 2); (35, 3); (43, 3); (51, 3); (59, 3); (67, 4); (83, 4); (99, 4); (115, 4); (131, 5); (163, 5); (195, 5);
   (227, 5); (258, 0)].
Definition dist_table : list (N * N) :=
  [(1, 0); (2, 0); (3, 0); (4, 0); (5, 1); (7, 1); (9, 2); (13, 2); (17, 3); (25, 3); (33, 4); (49, 4); (65, 5); (97, 5);
   (129, 6); (193, 6); (257, 7); (385, 7); (513, 8); (769, 8); (1025, 9); (1537, 9); (2049, 10); (3073, 10); (4097, 11);
   (6145, 11); (8193, 12); (12289, 12); (16385, 13); (24577, 13)].
Definition extra (t : list (N * N)) (i : N) (s : list bool) : option (N * list bool) :=
  match nth_error t (N.to_nat i) with
  | Some (base, n) => match take (N.to_nat n) s with Some (v, r) => Some (base + v, r) | None => None end
  | None => None
  end.

(** Repeat [n] bytes from [d] bytes back; the output is kept in reverse. *)
Fixpoint copy (n : nat) (d : nat) (out : list N) : option (list N) :=
  match n with
  | O => Some out
  | S k => match nth_error out (d - 1) with Some b => copy k d (b :: out) | None => None end
  end.

(** The symbols of a block up to its end. *)
Fixpoint block (fuel : nat) (lit dist : code) (s : list bool) (out : list N) : option (list N * list bool) :=
  match fuel with
  | O => None
  | S f =>
      match symbol lit 0 0 s with
      | None => None
      | Some (x, r) =>
          if x <? 256 then block f lit dist r (x :: out)
          else if x =? 256 then Some (out, r)
          else match extra len_table (x - 257) r with
               | None => None
               | Some (n, r) =>
                   match symbol dist 0 0 r with
                   | None => None
                   | Some (y, r) =>
                       match extra dist_table y r with
                       | None => None
                       | Some (d, r) => match copy (N.to_nat n) (N.to_nat d) out with
                                        | Some out => block f lit dist r out
                                        | None => None
                                        end
                       end
                   end
               end
      end
  end.

(** The code lengths of a block with its own codes. *)
Fixpoint lengths (fuel : nat) (h : code) (need : nat) (s : list bool) (acc : list N) : option (list N * list bool) :=
  match fuel with
  | O => None
  | S f =>
      if (need <=? length acc)%nat then if (length acc =? need)%nat then Some (rev acc, s) else None
      else match symbol h 0 0 s with
           | None => None
           | Some (x, r) =>
               if x <? 16 then lengths f h need r (x :: acc)
               else
                 let '(what, bits, base) := if x =? 16 then (hd_error acc, 2%nat, 3) else if x =? 17 then (Some 0, 3%nat, 3) else (Some 0, 7%nat, 11) in
                 match what, take bits r with
                 | Some v, Some (n, r) => lengths f h need r (repeat v (N.to_nat (base + n)) ++ acc)%list
                 | _, _ => None
                 end
           end
  end.
Fixpoint take3 (n : nat) (s : list bool) : option (list N * list bool) :=
  match n with
  | O => Some ([], s)
  | S k => match take 3 s with
           | Some (v, r) => match take3 k r with Some (l, r') => Some (v :: l, r') | None => None end
           | None => None
           end
  end.
Definition order : list N := [16; 17; 18; 0; 8; 7; 9; 6; 10; 5; 11; 4; 12; 3; 13; 2; 14; 1; 15].
Definition at_order (l : list N) (i : N) : N :=
  match find (fun e => fst e =? i) (combine order l) with Some e => snd e | None => 0 end.
Definition own_codes (fuel : nat) (s : list bool) : option (code * code * list bool) :=
  match take 5 s with None => None | Some (hlit, s) =>
  match take 5 s with None => None | Some (hdist, s) =>
  match take 4 s with None => None | Some (hclen, s) =>
  match take3 (N.to_nat (hclen + 4)) s with None => None | Some (cl, s) =>
  let h := code_of (map (fun i => at_order cl (N.of_nat i)) (seq 0 19)) in
  let nlit := N.to_nat (hlit + 257) in
  match lengths fuel h (nlit + N.to_nat (hdist + 1)) s [] with None => None | Some (ls, s) =>
  Some (code_of (firstn nlit ls), code_of (skipn nlit ls), s)
  end end end end end.
Definition fixed_lit : code := code_of (repeat 8 144 ++ repeat 9 112 ++ repeat 7 24 ++ repeat 8 8)%list.
Definition fixed_dist : code := code_of (repeat 5 30).

(** Bytes from the next byte boundary on. *)
Fixpoint take_bytes (n : nat) (s : list bool) : option (list N * list bool) :=
  match n with
  | O => Some ([], s)
  | S k => match take 8 s with
           | Some (v, r) => match take_bytes k r with Some (l, r') => Some (v :: l, r') | None => None end
           | None => None
           end
  end.
Definition align (s : list bool) : list bool := skipn (length s mod 8) s.

Fixpoint blocks (fuel : nat) (s : list bool) (out : list N) : option (list N * list bool) :=
  match fuel with
  | O => None
  | S f =>
      match take 1 s with None => None | Some (final, s) =>
      match take 2 s with None => None | Some (kind, s) =>
      let res :=
        if kind =? 0 then
          match take_bytes 4 (align s) with
          | Some ([a; b; c; d], s) =>
              if (c =? 255 - a) && (d =? 255 - b)
              then match take_bytes (N.to_nat (a + 256 * b)) s with Some (l, s) => Some (rev l ++ out, s)%list | None => None end
              else None
          | _ => None
          end
        else if kind =? 1 then block fuel fixed_lit fixed_dist s out
        else if kind =? 2 then match own_codes fuel s with Some (lit, dist, s) => block fuel lit dist s out | None => None end
        else None in
      match res with
      | None => None
      | Some (out, s) => if final =? 1 then Some (out, s) else blocks f s out
      end
      end end
  end.

(** CRC-32 *)
Definition crc32_bit (c : N) : N := if N.odd c then N.lxor (N.div2 c) 3988292384 else N.div2 c.
Definition crc32_byte (c b : N) : N := Nat.iter 8 crc32_bit (N.lxor c b).
Definition crc32 (l : bytes) : N := N.lxor (fold_left crc32_byte l 4294967295) 4294967295.

(** One member without optional header fields. *)
Definition gunzip (z : bytes) : option bytes :=
  match z with
  | a :: b :: c :: flags :: _ :: _ :: _ :: _ :: _ :: _ :: r =>
      if (a =? 31) && (b =? 139) && (c =? 8) && (flags =? 0) then
        match blocks (8 * length r) (bits_of r) [] with
        | None => None
        | Some (out, s) =>
            let data := rev out in
            match take_bytes 8 (align s) with
            | Some (t, []) =>
                if le_num (firstn 4 t) =? crc32 data then
                  if le_num (skipn 4 t) =? N.of_nat (length data) mod 4294967296 then Some data else None
                else None
            | _ => None
            end
        end
      else None
  | _ => None
  end.

(** ** The library *)
(** Descriptor, e.g. line 264: the index of the message in the descriptor; EnumDescriptor,
    line 191. *)
Definition descriptor_index : list (string * list nat) :=
  [("StorageRecord", [0%nat]); ("SensAccelerometerData", [1%nat]); ("SensAinAinValue", [2%nat]); ("SensBufferData", [3%nat]);
   ("SensButtonPressCounter", [4%nat]); ("SensCanLogData", [5%nat]); ("SensCanLogTmpDataExt", [6%nat]);
   ("SensCounterCount", [7%nat]); ("SensCrashData", [8%nat]); ("SensDinsFlags", [9%nat]); ("SensDoutsFlags", [10%nat]);
   ("SensFmeterFrequency", [11%nat]); ("SensFuelLevel", [12%nat]); ("SensGsmCellMonotoringCellMonitoring", [13%nat]);
   ("SensNdNavData", [14%nat]); ("SensStorInfo", [15%nat]); ("SensTermoData", [16%nat]); ("SensTestEraTests", [17%nat]);
   ("SensTrackerInfo", [18%nat])].
Definition enum_index : list nat := [0; 0]%nat.
(** init, lines 1354-1375: the types registered by name. *)
Definition registered : list (string * string) :=
  [("StorageRecord", "nv.storage_record"); ("SensAccelerometerData", "nv.sens_accelerometer_data");
   ("SensAinAinValue", "nv.sens_ain_ain_value"); ("SensBufferData", "nv.sens_buffer_data");
   ("SensButtonPressCounter", "nv.sens_button_press_counter"); ("SensCanLogData", "nv.sens_can_log_data");
   ("SensCanLogTmpDataExt", "nv.sens_can_log_tmp_data_ext"); ("SensCounterCount", "nv.sens_counter_count");
   ("SensCrashData", "nv.sens_crash_data"); ("SensDinsFlags", "nv.sens_dins_flags"); ("SensDoutsFlags", "nv.sens_douts_flags");
   ("SensFmeterFrequency", "nv.sens_fmeter_frequency"); ("SensFuelLevel", "nv.sens_fuel_level");
   ("SensGsmCellMonotoringCellMonitoring", "nv.sens_gsm_cell_monotoring_cell_monitoring");
   ("SensNdNavData", "nv.sens_nd_nav_data"); ("SensStorInfo", "nv.sens_stor_info"); ("SensTermoData", "nv.sens_termo_data");
   ("SensTestEraTests", "nv.sens_test_era_tests"); ("SensTrackerInfo", "nv.sens_tracker_info")].

(** fileDescriptor0, lines 1379-1520 *)
Definition fileDescriptor0 : bytes :=
  [31; 139; 8; 0; 0; 0; 0; 0; 2; 255; 172; 87; 221; 110; 227; 198; 21; 134; 252; 43; 143; 37; 155; 30; 255; 44; 55; 155; 52; 142; 210; 6;
   110; 145; 46; 154; 77; 2; 20; 40; 154; 150; 43; 209; 178; 10; 155; 114; 134; 180; 55; 189; 233; 148; 166; 70; 90; 162; 228; 80; 37; 135; 138; 183;
   183; 69; 223; 160; 232; 67; 244; 166; 183; 189; 232; 77; 239; 251; 26; 125; 143; 226; 156; 25; 82; 138; 229; 104; 19; 160; 23; 130; 120; 190; 243; 205;
   55; 103; 206; 28; 158; 25; 146; 103; 98; 162; 10; 94; 228; 28; 254; 167; 73; 89; 240; 81; 168; 194; 231; 211; 60; 83; 25; 93; 147; 179; 206; 95;
   14; 200; 94; 161; 178; 60; 156; 8; 158; 139; 40; 203; 71; 244; 67; 210; 214; 79; 92; 150; 233; 157; 200; 237; 198; 233; 218; 89; 155; 181; 52; 232;
   33; 70; 223; 35; 68; 197; 169; 224; 133; 10; 211; 169; 189; 118; 186; 118; 182; 205; 118; 0; 241; 1; 160; 95; 212; 26; 185; 8; 139; 76; 218; 235;
   167; 235; 103; 123; 47; 158; 62; 151; 179; 231; 223; 156; 238; 185; 38; 84; 242; 12; 45; 250; 1; 105; 21; 42; 84; 101; 193; 199; 73; 56; 41; 236;
   13; 156; 96; 87; 99; 231; 0; 81; 159; 60; 41; 132; 44; 120; 24; 69; 34; 17; 121; 150; 10; 37; 114; 92; 158; 77; 79; 215; 207; 118; 95; 60;
   195; 201; 30; 167; 176; 99; 112; 56; 139; 120; 47; 84; 33; 237; 18; 170; 71; 196; 18; 127; 179; 48; 41; 133; 189; 131; 122; 39; 115; 189; 69; 47;
   219; 71; 169; 88; 58; 177; 188; 5; 128; 126; 65; 44; 164; 221; 149; 227; 113; 21; 210; 17; 74; 28; 213; 18; 11; 62; 182; 7; 200; 75; 4; 48;
   136; 175; 200; 83; 195; 81; 42; 147; 124; 154; 139; 162; 224; 81; 86; 74; 37; 114; 123; 15; 133; 222; 91; 16; 90; 38; 177; 19; 173; 8; 158; 107;
   112; 116; 53; 78; 127; 77; 14; 112; 80; 20; 74; 158; 100; 19; 29; 154; 133; 138; 199; 181; 226; 162; 83; 199; 214; 13; 229; 101; 54; 193; 216; 110;
   77; 108; 21; 73; 165; 83; 36; 114; 113; 175; 236; 131; 7; 177; 61; 70; 98; 71; 115; 197; 32; 157; 130; 168; 123; 175; 104; 207; 36; 222; 172; 64;
   255; 219; 187; 15; 18; 255; 13; 47; 195; 44; 155; 165; 225; 31; 253; 5; 217; 215; 188; 60; 44; 94; 235; 213; 217; 40; 113; 56; 151; 168; 93; 172;
   141; 227; 193; 198; 165; 85; 131; 71; 177; 172; 202; 142; 60; 24; 60; 119; 233; 193; 189; 88; 154; 106; 172; 246; 124; 148; 149; 170; 26; 125; 248; 96;
   207; 23; 124; 58; 175; 61; 0; 244; 248; 43; 130; 21; 201; 199; 186; 70; 199; 185; 248; 99; 41; 100; 244; 198; 110; 161; 200; 211; 90; 228; 33; 129;
   29; 2; 124; 142; 232; 121; 5; 214; 107; 25; 151; 34; 225; 137; 152; 137; 196; 110; 62; 88; 203; 220; 165; 215; 114; 94; 138; 228; 18; 76; 250; 231;
   6; 57; 67; 202; 164; 72; 121; 36; 146; 132; 167; 153; 204; 84; 150; 199; 114; 82; 219; 177; 182; 237; 54; 202; 126; 92; 203; 126; 135; 49; 236; 67;
   96; 246; 139; 180; 43; 146; 228; 170; 166; 25; 203; 144; 232; 47; 77; 70; 229; 136; 203; 112; 166; 55; 115; 251; 65; 70; 23; 124; 122; 17; 222; 200;
   11; 103; 184; 155; 63; 39; 152; 98; 14; 221; 134; 199; 114; 156; 217; 199; 56; 152; 214; 131; 107; 15; 107; 129; 237; 171; 44; 31; 200; 113; 86; 231;
   78; 137; 60; 205; 244; 188; 251; 15; 114; 55; 119; 233; 105; 3; 176; 113; 218; 115; 114; 104; 24; 133; 226; 34; 15; 241; 161; 176; 159; 160; 192; 147;
   5; 129; 69; 183; 174; 228; 64; 20; 202; 205; 67; 248; 43; 168; 99; 222; 84; 149; 135; 209; 31; 132; 89; 193; 201; 131; 55; 117; 209; 169; 219; 80;
   160; 17; 88; 71; 231; 239; 155; 100; 75; 55; 87; 106; 145; 86; 207; 189; 29; 116; 93; 206; 92; 223; 13; 172; 6; 165; 100; 239; 154; 13; 207; 7;
   151; 46; 239; 94; 56; 94; 223; 181; 214; 232; 62; 217; 29; 244; 189; 65; 48; 24; 122; 124; 232; 89; 235; 48; 108; 14; 156; 159; 91; 27; 116; 143;
   144; 128; 13; 174; 249; 75; 183; 63; 240; 172; 77; 218; 34; 77; 180; 93; 175; 103; 109; 209; 38; 217; 240; 131; 225; 181; 181; 13; 79; 87; 195; 91;
   215; 106; 130; 70; 48; 124; 53; 240; 250; 102; 204; 14; 106; 104; 4; 70; 17; 180; 7; 87; 46; 227; 56; 98; 119; 110; 163; 86; 139; 238; 144; 77;
   199; 235; 95; 186; 86; 27; 166; 235; 13; 252; 192; 241; 186; 174; 181; 7; 68; 127; 232; 243; 151; 55; 65; 48; 244; 172; 125; 88; 147; 239; 50; 92;
   166; 193; 44; 74; 200; 86; 224; 92; 93; 187; 204; 58; 0; 191; 227; 5; 174; 231; 57; 220; 127; 53; 8; 186; 23; 22; 5; 197; 190; 127; 197; 47;
   135; 126; 96; 29; 210; 3; 210; 6; 139; 185; 221; 161; 231; 185; 221; 192; 58; 162; 109; 178; 211; 247; 124; 95; 51; 142; 233; 49; 57; 64; 147; 185;
   206; 151; 55; 3; 31; 115; 99; 157; 64; 40; 191; 113; 174; 32; 232; 190; 127; 101; 61; 129; 84; 86; 182; 231; 251; 150; 13; 132; 225; 45; 172; 233;
   218; 117; 123; 214; 83; 152; 23; 109; 118; 125; 101; 189; 67; 143; 136; 133; 86; 224; 66; 168; 78; 112; 195; 92; 235; 25; 204; 213; 131; 173; 97; 195;
   27; 159; 247; 216; 224; 118; 224; 245; 173; 119; 97; 168; 211; 237; 14; 122; 174; 23; 88; 239; 65; 124; 48; 52; 184; 96; 195; 87; 214; 15; 112; 30;
   143; 191; 116; 130; 192; 101; 191; 181; 222; 7; 13; 99; 240; 222; 192; 239; 94; 56; 172; 239; 90; 167; 176; 80; 230; 244; 6; 67; 30; 56; 125; 206;
   220; 190; 245; 1; 61; 36; 251; 115; 232; 198; 3; 176; 67; 223; 33; 39; 176; 43; 252; 213; 32; 184; 24; 222; 4; 188; 102; 88; 31; 66; 58; 221;
   238; 13; 119; 25; 27; 50; 222; 29; 246; 92; 235; 135; 176; 16; 247; 171; 192; 101; 158; 115; 201; 153; 251; 229; 141; 235; 7; 214; 143; 32; 27; 166;
   252; 2; 0; 62; 130; 162; 24; 6; 23; 176; 124; 215; 241; 135; 158; 21; 117; 254; 217; 248; 214; 227; 156; 62; 37; 77; 253; 182; 151; 169; 221; 56;
   109; 156; 181; 217; 54; 190; 235; 101; 74; 45; 178; 126; 87; 142; 237; 181; 211; 198; 89; 139; 193; 35; 32; 161; 74; 237; 117; 228; 193; 35; 125; 151;
   236; 204; 219; 233; 6; 226; 115; 128; 30; 145; 205; 60; 148; 19; 97; 111; 162; 71; 27; 244; 132; 108; 141; 179; 60; 13; 149; 189; 133; 176; 177; 40;
   37; 27; 127; 74; 226; 59; 123; 27; 81; 124; 238; 252; 234; 177; 59; 195; 170; 160; 247; 200; 90; 58; 195; 152; 219; 108; 45; 157; 117; 126; 183; 124;
   95; 88; 53; 156; 146; 13; 108; 74; 122; 209; 248; 76; 159; 145; 157; 184; 224; 83; 120; 249; 71; 184; 246; 38; 107; 198; 197; 53; 218; 157; 203; 21;
   247; 137; 85; 19; 29; 145; 77; 184; 112; 9; 156; 169; 201; 180; 209; 249; 207; 198; 35; 151; 136; 85; 50; 207; 201; 33; 156; 121; 188; 16; 81; 153;
   199; 234; 13; 159; 139; 182; 217; 1; 184; 124; 227; 241; 193; 1; 87; 75; 228; 135; 73; 152; 87; 27; 185; 3; 136; 3; 0; 253; 136; 236; 11; 57;
   137; 165; 224; 120; 1; 13; 147; 196; 108; 106; 91; 195; 65; 156; 10; 39; 73; 232; 79; 200; 65; 197; 43; 115; 201; 139; 169; 16; 35; 179; 201; 70;
   32; 40; 115; 233; 3; 76; 127; 74; 104; 197; 21; 233; 84; 228; 161; 42; 115; 129; 91; 127; 192; 140; 74; 48; 119; 208; 159; 145; 35; 60; 61; 163;
   76; 22; 101; 58; 85; 113; 38; 49; 14; 93; 21; 20; 124; 221; 185; 11; 130; 129; 53; 45; 30; 197; 122; 77; 245; 137; 251; 140; 236; 96; 47; 71;
   149; 29; 244; 54; 17; 128; 177; 176; 13; 24; 60; 209; 21; 138; 6; 164; 1; 55; 178; 204; 5; 15; 239; 227; 130; 127; 98; 239; 234; 52; 84; 176;
   115; 31; 23; 159; 44; 243; 94; 216; 173; 101; 222; 139; 101; 222; 167; 118; 123; 153; 247; 233; 50; 239; 51; 123; 111; 153; 247; 217; 50; 239; 115; 123;
   127; 153; 247; 121; 39; 95; 113; 161; 92; 85; 85; 166; 74; 10; 254; 58; 158; 188; 54; 197; 132; 85; 82; 92; 196; 147; 215; 144; 81; 237; 78; 178;
   175; 77; 13; 53; 17; 184; 204; 190; 238; 184; 143; 93; 54; 223; 242; 38; 232; 47; 1; 61; 143; 54; 58; 241; 210; 109; 115; 149; 198; 9; 217; 18;
   82; 228; 147; 55; 70; 196; 88; 240; 185; 21; 23; 60; 155; 137; 28; 234; 180; 126; 125; 91; 113; 49; 172; 177; 206; 239; 151; 238; 166; 111; 153; 106;
   36; 102; 113; 84; 197; 107; 44; 250; 14; 105; 138; 123; 37; 114; 25; 38; 85; 78; 42; 187; 19; 46; 95; 96; 255; 223; 83; 92; 124; 203; 29; 247;
   251; 103; 254; 111; 141; 165; 251; 237; 119; 22; 89; 51; 34; 212; 38; 219; 211; 48; 207; 51; 85; 152; 72; 43; 19; 58; 108; 41; 99; 101; 250; 10;
   62; 211; 22; 105; 40; 211; 62; 26; 10; 150; 175; 191; 69; 171; 243; 65; 91; 157; 127; 125; 143; 171; 243; 91; 206; 181; 36; 140; 48; 128; 22; 131;
   71; 64; 162; 88; 55; 176; 22; 131; 71; 136; 50; 47; 138; 24; 35; 104; 49; 124; 6; 73; 221; 21; 71; 51; 236; 70; 45; 182; 13; 182; 51; 154;
   129; 64; 26; 69; 38; 143; 240; 136; 136; 140; 170; 163; 50; 149; 81; 231; 175; 107; 203; 151; 238; 85; 97; 190; 75; 118; 146; 76; 78; 98; 85; 142;
   116; 114; 247; 217; 28; 128; 90; 72; 66; 165; 157; 235; 232; 172; 109; 240; 133; 137; 241; 233; 52; 215; 246; 188; 225; 109; 46; 54; 188; 19; 178; 21;
   101; 101; 94; 136; 42; 229; 218; 130; 55; 189; 8; 149; 249; 96; 212; 29; 184; 89; 132; 74; 127; 16; 82; 178; 49; 29; 101; 83; 211; 113; 241; 25;
   228; 177; 183; 154; 70; 171; 13; 8; 40; 27; 233; 91; 135; 105; 180; 181; 221; 249; 111; 227; 225; 199; 196; 170; 164; 28; 147; 173; 120; 196; 211; 240;
   190; 170; 217; 120; 116; 21; 222; 87; 112; 44; 77; 194; 1; 142; 37; 182; 254; 148; 103; 201; 72; 20; 85; 193; 53; 85; 58; 68; 27; 154; 104; 237;
   228; 165; 132; 160; 117; 78; 218; 21; 229; 6; 64; 16; 137; 100; 197; 208; 233; 105; 70; 210; 56; 207; 136; 85; 59; 121; 146; 21; 74; 140; 76; 158;
   246; 42; 206; 37; 162; 157; 241; 210; 151; 207; 91; 90; 128; 121; 7; 214; 22; 223; 1; 122; 74; 118; 23; 79; 209; 117; 60; 69; 23; 161; 206; 191;
   215; 31; 253; 74; 90; 53; 217; 71; 100; 63; 141; 35; 56; 113; 249; 56; 140; 19; 16; 214; 183; 146; 118; 26; 71; 221; 76; 158; 107; 144; 190; 79;
   118; 129; 87; 113; 116; 47; 37; 105; 28; 85; 132; 31; 19; 43; 158; 200; 24; 207; 236; 138; 181; 129; 172; 253; 10; 95; 208; 42; 227; 180; 102; 109;
   106; 173; 50; 78; 23; 8; 119; 161; 170; 9; 91; 154; 112; 23; 170; 138; 112; 74; 90; 64; 152; 101; 137; 194; 131; 104; 187; 102; 220; 102; 137; 186;
   204; 190; 166; 31; 19; 170; 143; 15; 221; 206; 140; 82; 19; 121; 22; 122; 124; 248; 54; 55; 122; 31; 144; 86; 30; 198; 41; 159; 230; 217; 93; 34;
   82; 172; 224; 38; 219; 5; 236; 90; 67; 112; 55; 153; 200; 162; 224; 161; 84; 66; 202; 176; 150; 36; 72; 165; 224; 115; 180; 171; 18; 253; 140; 156;
   136; 153; 144; 170; 224; 169; 72; 179; 252; 13; 158; 69; 99; 8; 119; 23; 199; 28; 105; 239; 21; 58; 135; 198; 215; 249; 71; 227; 145; 47; 212; 85;
   59; 248; 132; 108; 67; 25; 66; 133; 154; 122; 137; 164; 114; 230; 245; 9; 213; 153; 11; 104; 2; 169; 48; 175; 200; 158; 102; 48; 131; 86; 101; 46;
   51; 16; 217; 168; 203; 220; 3; 27; 54; 3; 156; 81; 38; 165; 136; 170; 86; 77; 34; 169; 186; 26; 249; 95; 0; 0; 0; 255; 255; 173; 14; 205;
   196; 12; 21; 0; 0].
