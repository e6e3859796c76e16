(** The model run on the inputs of the tests in /repo/adc: adc/*_test.go.  The expected results are
    those of the tests.  The hash of a password is a parameter of the model; its base32 form is used
    instead. *)
From Verif Require Import Base Num Base32 Tiger AdcText AdcValue AdcMessage AdcPacket.

Definition no_float (s : bytes) : float_result := FErr.
(** adc/marshal_test.go: decoding into a new message and encoding *)
Definition adc_case (data : bytes) (new m : amsg) : Prop := unmarshal no_float data new = Ok m /\ marshal m = data.
Definition struct_case (data : bytes) (t : stype) (v : vals (fields_of t)) : Prop := adc_case data (new_struct t) (AStruct t v).
Ltac run := split; vm_compute; reflexivity.
Definition tth (s : string) : bytes := match must_parse_base32 (B s) with Ok h => h | _ => [] end.
Arguments tth s%string.

Example sid_marshal : sid_from_string (B "AAAA") = Ok (B "AAAA") /\ sid_from_int 2 = B "AAAC" /\ sid_from_int 34 = B "AABC".
Proof. repeat split; vm_compute; reflexivity. Qed.
(** adc/chat_test.go *)
Example chat_1 : struct_case (B "some\stext") TChat (B "some text", (None, (false, (0%Z, tt)))).
Proof. run. Qed.
Example chat_2 : struct_case (B "some\stext PMAAAB") TChat (B "some text", (Some (B "AAAB"), (false, (0%Z, tt)))).
Proof. run. Qed.
Example chat_3 : struct_case (B "some\stext ME1") TChat (B "some text", (None, (true, (0%Z, tt)))).
Proof. run. Qed.
(** adc/connect_test.go *)
Example connect_1 : struct_case (B "ADC/1.0 3000 1298498081") TCtm (B "ADC/1.0", (3000%Z, (B "1298498081", tt))).
Proof. run. Qed.
Example connect_2 : struct_case (B "ADC/1.0 12345678") TRcm (B "ADC/1.0", (B "12345678", tt)).
Proof. run. Qed.
(** adc/files_test.go *)
Example files_1 : adc_case (B "file TTH/BR4BVJBMHDFVCFI4WBPSL63W5TWXWVBSC574BLI 124 12352") (AGet new_get) (AGet {| g_type := B "file"; g_path := B "TTH/BR4BVJBMHDFVCFI4WBPSL63W5TWXWVBSC574BLI"; g_start := 124; g_bytes := 12352; g_comp := false |}).
Proof. run. Qed.
Example files_2 : adc_case (B "file TTH/BR4BVJBMHDFVCFI4WBPSL63W5TWXWVBSC574BLI 124 12352 ZL1") (AGet new_get) (AGet {| g_type := B "file"; g_path := B "TTH/BR4BVJBMHDFVCFI4WBPSL63W5TWXWVBSC574BLI"; g_start := 124; g_bytes := 12352; g_comp := true |}).
Proof. run. Qed.
Example files_3 : adc_case (B "tthl TTH/BR4BVJBMHDFVCFI4WBPSL63W5TWXWVBSC574BLI 124 12352") (AGet new_get) (AGet {| g_type := B "tthl"; g_path := B "TTH/BR4BVJBMHDFVCFI4WBPSL63W5TWXWVBSC574BLI"; g_start := 124; g_bytes := 12352; g_comp := false |}).
Proof. run. Qed.
Example files_4 : adc_case (B "file TTH/BR4BVJBMHDFVCFI4WBPSL63W5TWXWVBSC574BLI 124 12352 ZL1") (ASnd new_get) (ASnd {| g_type := B "file"; g_path := B "TTH/BR4BVJBMHDFVCFI4WBPSL63W5TWXWVBSC574BLI"; g_start := 124; g_bytes := 12352; g_comp := true |}).
Proof. run. Qed.
(** adc/hub_test.go *)
Example hub_1 : struct_case (B "ADCH++/Hub\smanagement/Reload\sscripts TTHMSG\s+reload\n CT3") TCmd ([B "ADCH++"; B "Hub management"; B "Reload scripts"], ((B "HMSG +reload" ++ [x0a]), (3%Z, (0%Z, (0%Z, (0%Z, tt)))))).
Proof. run. Qed.
Example hub_2 : adc_case (B "AAAQEAYEAUDAOCAJAAAQEAYCAMCAKBQHBAEQAAI") (AGpa []) (AGpa [x00; x01; x02; x03; x04; x05; x06; x07; x08; x09; x00; x01; x02; x03; x02; x03; x04; x05; x06; x07; x08; x09; x00; x01]).
Proof. run. Qed.
Example hub_3 : struct_case (B "ABZCJESSJKVMIL2BDERHSJ7RF5IYI6ZX2QAOQGI") TPas (tth "ABZCJESSJKVMIL2BDERHSJ7RF5IYI6ZX2QAOQGI", tt).
Proof. run. Qed.
(** adc/search_test.go *)
Example search_1 : struct_case (B "TOtok FNfilepath SI1234567 SL3") TRes (B "tok", (B "filepath", (1234567%Z, (3%Z, (None, tt))))).
Proof. run. Qed.
Example search_2 : struct_case (B "TO4171511714 ANsome ANdata GR32") TSch (B "4171511714", ([B "some"; B "data"], ([], ([], (0%Z, (0%Z, (0%Z, (0%Z, (None, (32%Z, ([], tt))))))))))).
Proof. run. Qed.
Example search_3 : struct_case (B "TO4171511714 GR32") TSch (B "4171511714", ([], ([], ([], (0%Z, (0%Z, (0%Z, (0%Z, (None, (32%Z, ([], tt))))))))))).
Proof. run. Qed.
Example search_4 : struct_case (B "TO4171511714 ANsome ANdata") TSch (B "4171511714", ([B "some"; B "data"], ([], ([], (0%Z, (0%Z, (0%Z, (0%Z, (None, (0%Z, ([], tt))))))))))).
Proof. run. Qed.
(** adc/user_test.go *)
Example user_1 : struct_case (B "IDHVBNEMDCTKCD4V3N54X4MMOVLJLJL6PSKVHFXHI NIgopher I4172.17.42.1 SS39542721391 SF34 VEGoConn\s0.01 SL3 FS0 HN0 HR0 HO0 SUGCON,ADC0") TInf (tth "HVBNEMDCTKCD4V3N54X4MMOVLJLJL6PSKVHFXHI", (None, (B "gopher", (B "172.17.42.1", ([], (0%Z, (0%Z, (39542721391%Z, (34%Z, (B "GoConn 0.01", ([], ([], ([], (3%Z, (0%Z, (0%Z, ([], ([], (0%Z, (0%Z, (0%Z, ([], (0%Z, (0%Z, ([], ([B "GCON"; B "ADC0"], ([], ([], tt)))))))))))))))))))))))))))).
Proof. run. Qed.
Example user_2 : struct_case (B "IDHVBNEMDCTKCD4V3N54X4MMOVLJLJL6PSKVHFXHI PDHVBNEMDCTKCD4V3N54X4MMOVLJLJL6PSKVHFXHI NIgopher I4172.17.42.1 SS39542721391 SF34 VEGoConn\s0.01 SL3 FS0 HN0 HR0 HO0 SUGCON,ADC0") TInf (tth "HVBNEMDCTKCD4V3N54X4MMOVLJLJL6PSKVHFXHI", (Some (tth "HVBNEMDCTKCD4V3N54X4MMOVLJLJL6PSKVHFXHI"), (B "gopher", (B "172.17.42.1", ([], (0%Z, (0%Z, (39542721391%Z, (34%Z, (B "GoConn 0.01", ([], ([], ([], (3%Z, (0%Z, (0%Z, ([], ([], (0%Z, (0%Z, (0%Z, ([], (0%Z, (0%Z, ([], ([B "GCON"; B "ADC0"], ([], ([], tt)))))))))))))))))))))))))))).
Proof. run. Qed.
Example user_3 : struct_case (B "IDKAY6BI76T6XFIQXZNRYE4WXJ2Y3YGXJG7UM7XLI NIuser I4172.17.42.1 U43000 SS25146919163 SF23 VEEiskaltDC++\s2.2.9 US1310720 SL3 FS3 HN11 HR0 HO1 SUSEGA,ADC0,TCP4,UDP4 KPSHA256/C44JWX62IN6JBAVH7NIHEZIQ6WSNQ2LHTOWYWP7ADGAYTCPZVWRQ") TInf (tth "KAY6BI76T6XFIQXZNRYE4WXJ2Y3YGXJG7UM7XLI", (None, (B "user", (B "172.17.42.1", ([], (3000%Z, (0%Z, (25146919163%Z, (23%Z, (B "EiskaltDC++ 2.2.9", ([], (B "1310720", ([], (3%Z, (3%Z, (0%Z, ([], ([], (11%Z, (0%Z, (1%Z, ([], (0%Z, (0%Z, ([], ([B "SEGA"; B "ADC0"; B "TCP4"; B "UDP4"], (B "SHA256/C44JWX62IN6JBAVH7NIHEZIQ6WSNQ2LHTOWYWP7ADGAYTCPZVWRQ", ([], tt)))))))))))))))))))))))))))).
Proof. run. Qed.
Example user_4 : struct_case (B "NI SS34815324082 SF8416 VE SL0 FS1 HN18 HR0 HO2 SUNAT0,ADC0,SEGA") TInf (repeat x00 hash_size, (None, ([], ([], ([], (0%Z, (0%Z, (34815324082%Z, (8416%Z, ([], ([], ([], ([], (0%Z, (1%Z, (0%Z, ([], ([], (18%Z, (0%Z, (2%Z, ([], (0%Z, (0%Z, ([], ([B "NAT0"; B "ADC0"; B "SEGA"], ([], ([], tt)))))))))))))))))))))))))))).
Proof. run. Qed.
(** adc/packets_test.go: DecodePacketRaw and MarshalPacketADC *)
Definition packet_case (data : bytes) (p : packet) : Prop :=
  (forall spare, decode_packet_raw spare (data ++ [x0a]) = Ok p) /\ marshal_packet p = data ++ [x0a].
Example packet_1 : packet_case (B "BINF AAAB") (PBroadcast (B "AAAB") (ARaw (B "INF") [])).
Proof. run. Qed.
Example packet_2 : packet_case (B "BINF AAAB IDKAY6BI76T6XFIQXZNRYE4WXJ2Y3YGXJG7UM7XLI NIuser") (PBroadcast (B "AAAB") (ARaw (B "INF") (B "IDKAY6BI76T6XFIQXZNRYE4WXJ2Y3YGXJG7UM7XLI NIuser"))).
Proof. run. Qed.
Example packet_3 : packet_case (B "CINF IDKAY6BI76T6XFIQXZNRYE4WXJ2Y3YGXJG7UM7XLI NIuser") (PClient (ARaw (B "INF") (B "IDKAY6BI76T6XFIQXZNRYE4WXJ2Y3YGXJG7UM7XLI NIuser"))).
Proof. run. Qed.
Example packet_4 : packet_case (B "IINF") (PInfo (ARaw (B "INF") [])).
Proof. run. Qed.
Example packet_5 : packet_case (B "IINF IDKAY6BI76T6XFIQXZNRYE4WXJ2Y3YGXJG7UM7XLI NIuser") (PInfo (ARaw (B "INF") (B "IDKAY6BI76T6XFIQXZNRYE4WXJ2Y3YGXJG7UM7XLI NIuser"))).
Proof. run. Qed.
Example packet_6 : packet_case (B "HINF IDKAY6BI76T6XFIQXZNRYE4WXJ2Y3YGXJG7UM7XLI NIuser") (PHub (ARaw (B "INF") (B "IDKAY6BI76T6XFIQXZNRYE4WXJ2Y3YGXJG7UM7XLI NIuser"))).
Proof. run. Qed.
Example packet_7 : packet_case (B "DCTM AAAA BBBB") (PDirect (B "AAAA") (B "BBBB") (ARaw (B "CTM") [])).
Proof. run. Qed.
Example packet_8 : packet_case (B "DCTM AAAA BBBB IDKAY6BI76T6XFIQXZNRYE4WXJ2Y3YGXJG7UM7XLI NIuser") (PDirect (B "AAAA") (B "BBBB") (ARaw (B "CTM") (B "IDKAY6BI76T6XFIQXZNRYE4WXJ2Y3YGXJG7UM7XLI NIuser"))).
Proof. run. Qed.
Example packet_9 : packet_case (B "EMSG AAAA BBBB IDKAY6BI76T6XFIQXZNRYE4WXJ2Y3YGXJG7UM7XLI NIuser") (PEcho (B "AAAA") (B "BBBB") (ARaw (B "MSG") (B "IDKAY6BI76T6XFIQXZNRYE4WXJ2Y3YGXJG7UM7XLI NIuser"))).
Proof. run. Qed.
Example packet_10 : packet_case (B "UINF KAY6BI76T6XFIQXZNRYE4WXJ2Y3YGXJG7UM7XLI") (PUdp (tth "KAY6BI76T6XFIQXZNRYE4WXJ2Y3YGXJG7UM7XLI") (ARaw (B "INF") [])).
Proof. run. Qed.
Example packet_11 : packet_case (B "UINF KAY6BI76T6XFIQXZNRYE4WXJ2Y3YGXJG7UM7XLI IDKAY6BI76T6XFIQXZNRYE4WXJ2Y3YGXJG7UM7XLI NIuser") (PUdp (tth "KAY6BI76T6XFIQXZNRYE4WXJ2Y3YGXJG7UM7XLI") (ARaw (B "INF") (B "IDKAY6BI76T6XFIQXZNRYE4WXJ2Y3YGXJG7UM7XLI NIuser"))).
Proof. run. Qed.
Example packet_12 : packet_case (B "FINF AAAB") (PFeature (B "AAAB") [] (ARaw (B "INF") [])).
Proof. run. Qed.
Example packet_13 : packet_case (B "FINF AAAB IDKAY6BI76T6XFIQXZNRYE4WXJ2Y3YGXJG7UM7XLI NIuser") (PFeature (B "AAAB") [] (ARaw (B "INF") (B "IDKAY6BI76T6XFIQXZNRYE4WXJ2Y3YGXJG7UM7XLI NIuser"))).
Proof. run. Qed.
Example packet_14 : packet_case (B "FINF AAAB +SEGA -NAT0") (PFeature (B "AAAB") [(B "SEGA", true); (B "NAT0", false)] (ARaw (B "INF") [])).
Proof. run. Qed.
Example packet_15 : packet_case (B "FINF AAAB +SEGA -NAT0 IDKAY6BI76T6XFIQXZNRYE4WXJ2Y3YGXJG7UM7XLI NIuser") (PFeature (B "AAAB") [(B "SEGA", true); (B "NAT0", false)] (ARaw (B "INF") (B "IDKAY6BI76T6XFIQXZNRYE4WXJ2Y3YGXJG7UM7XLI NIuser"))).
Proof. run. Qed.
