(** The model run on the inputs of the tests in /repo: nmdc/msg_*_test.go, nmdc/reader_test.go,
    nmdc/types_test.go, adc/*_test.go.  The expected results are those of the tests.  Tests of the
    Tiger hash itself (tiger/tth_test.go) and of certificates (keyprint/keyprint_test.go) are left
    out: the hash functions are parameters of the model. *)
From Verif Require Import Base Num Base32 Tiger LineReader NmdcText NmdcChat NmdcFiles NmdcHub NmdcUser NmdcMessage NmdcReader.

(** nmdc/messages_test.go: decoding into a new message gives the expected message, encoding it the expected text. *)
Definition nmdc_case (typ : string) (data expected : bytes) (m : msg) : Prop :=
  msg_unmarshal None (new_message (B typ)) data = (m, Ok tt) /\ msg_marshal None m = Ok expected.
Arguments nmdc_case typ%string _ _ _.
Ltac run := split; vm_compute; reflexivity.

(** tiger.MustParseBase32 of the tests *)
Definition tth (s : string) : bytes := match must_parse_base32 (B s) with Ok h => h | _ => [] end.
Arguments tth s%string.

(** nmdc/msg_chat_test.go *)
Example chat_1 : nmdc_case "To:" (B "john From: room $<peter> dogs are more cute") (B "john From: room $<peter> dogs are more cute") (MPm (mk_pm (B "john") (B "room") (B "peter") (B "dogs are more cute"))).
Proof. run. Qed.
Example chat_2 : nmdc_case "To:" (B "user 1 From: room 1 $<user 2> private message") (B "user 1 From: room 1 $<user 2> private message") (MPm (mk_pm (B "user 1") (B "room 1") (B "user 2") (B "private message"))).
Proof. run. Qed.
Example chat_3 : nmdc_case "MCTo" (B "target $sender some message") (B "target $sender some message") (MMCTo (mk_mcto (B "target") (B "sender") (B "some message"))).
Proof. run. Qed.
Example chat_4 : nmdc_case "UserCommand" (B "1 3 # Ledokol Menu\.:: Ranks\All time user location statistics $<%[mynick]> +cchist") (B "1 3 # Ledokol Menu\.:: Ranks\All time user location statistics $<%[mynick]> +cchist") (MUserCommand (mk_ucmd 1 3 [B "# Ledokol Menu"; B ".:: Ranks"; B "All time user location statistics"] (B "<%[mynick]> +cchist"))).
Proof. run. Qed.
Example chat_5 : nmdc_case "UserCommand" (B "1 3 a\b\c$<%[mynick]> +cchist") (B "1 3 a\b\c $<%[mynick]> +cchist") (MUserCommand (mk_ucmd 1 3 [B "a"; B "b"; B "c"] (B "<%[mynick]> +cchist"))).
Proof. run. Qed.
Example chat_6 : nmdc_case "UserCommand" (B "255 1") (B "255 1") (MUserCommand (mk_ucmd 255 1 [] [])).
Proof. run. Qed.
Example chat_7 : nmdc_case "UserCommand" (B "255 1 ") (B "255 1") (MUserCommand (mk_ucmd 255 1 [] [])).
Proof. run. Qed.
Example chat_8 : nmdc_case "UserCommand" (B "0 3&#124;") (B "0 3") (MUserCommand (mk_ucmd 0 3 [] [])).
Proof. run. Qed.
(** nmdc/msg_ctm_test.go *)
Example connect_1 : nmdc_case "ConnectToMe" (B "john 192.168.1.2:412") (B "john 192.168.1.2:412") (MCtm (mk_ctm (B "john") [] (B "192.168.1.2:412") 0 false)).
Proof. run. Qed.
Example connect_2 : nmdc_case "ConnectToMe" (B "john 192.168.1.2:412S") (B "john 192.168.1.2:412S") (MCtm (mk_ctm (B "john") [] (B "192.168.1.2:412") 0 true)).
Proof. run. Qed.
Example connect_3 : nmdc_case "ConnectToMe" (B "john 192.168.1.2:412N peter") (B "john 192.168.1.2:412N peter") (MCtm (mk_ctm (B "john") (B "peter") (B "192.168.1.2:412") 1 false)).
Proof. run. Qed.
Example connect_4 : nmdc_case "ConnectToMe" (B "john 192.168.1.2:412NS peter") (B "john 192.168.1.2:412NS peter") (MCtm (mk_ctm (B "john") (B "peter") (B "192.168.1.2:412") 1 true)).
Proof. run. Qed.
Example connect_5 : nmdc_case "ConnectToMe" (B "john 192.168.1.2:412R") (B "john 192.168.1.2:412R") (MCtm (mk_ctm (B "john") [] (B "192.168.1.2:412") 2 false)).
Proof. run. Qed.
Example connect_6 : nmdc_case "ConnectToMe" (B "john 192.168.1.2:412RS") (B "john 192.168.1.2:412RS") (MCtm (mk_ctm (B "john") [] (B "192.168.1.2:412") 2 true)).
Proof. run. Qed.
(** nmdc/msg_errors_test.go *)
Example errors_1 : nmdc_case "Error" (B "message") (B "message") (MErr KError (Some (B "message"))).
Proof. run. Qed.
(** nmdc/msg_files_test.go *)
Example files_1 : nmdc_case "ADCGET" (B "file files.xml.bz2 0 -1") (B "file files.xml.bz2 0 -1") (MAdcGet (mk_adcget (B "file") (B "files.xml.bz2") 0 (-1) false None)).
Proof. run. Qed.
Example files_2 : nmdc_case "ADCGET" (B "file TTH/BR4BVJBMHDFVCFI4WBPSL63W5TWXWVBSC574BLI 123523 65") (B "file TTH/BR4BVJBMHDFVCFI4WBPSL63W5TWXWVBSC574BLI 123523 65") (MAdcGet (mk_adcget (B "file") (B "TTH/BR4BVJBMHDFVCFI4WBPSL63W5TWXWVBSC574BLI") 123523 (65) false None)).
Proof. run. Qed.
Example files_3 : nmdc_case "ADCGET" (B "tthl TTH/PT2BL57H4JJ5LHXBDA6CJ5KEOO5XEKNIFYINE7I 6342 7323") (B "tthl TTH/PT2BL57H4JJ5LHXBDA6CJ5KEOO5XEKNIFYINE7I 6342 7323") (MAdcGet (mk_adcget (B "tthl") (B "TTH/PT2BL57H4JJ5LHXBDA6CJ5KEOO5XEKNIFYINE7I") 6342 (7323) false None)).
Proof. run. Qed.
Example files_4 : nmdc_case "ADCGET" (B "file TTH/BR4BVJBMHDFVCFI4WBPSL63W5TWXWVBSC574BLI 123523 65 ZL1") (B "file TTH/BR4BVJBMHDFVCFI4WBPSL63W5TWXWVBSC574BLI 123523 65 ZL1") (MAdcGet (mk_adcget (B "file") (B "TTH/BR4BVJBMHDFVCFI4WBPSL63W5TWXWVBSC574BLI") 123523 (65) true None)).
Proof. run. Qed.
Example files_5 : nmdc_case "ADCGET" (B "file TTH/BR4BVJBMHDFVCFI4WBPSL63W5TWXWVBSC574BLI 123523 65 ZL1 DB15") (B "file TTH/BR4BVJBMHDFVCFI4WBPSL63W5TWXWVBSC574BLI 123523 65 ZL1 DB15") (MAdcGet (mk_adcget (B "file") (B "TTH/BR4BVJBMHDFVCFI4WBPSL63W5TWXWVBSC574BLI") 123523 (65) true (Some 15%N))).
Proof. run. Qed.
Example files_6 : nmdc_case "ADCGET" (B "file TTH/BR4BVJBMHDFVCFI4WBPSL63W5TWXWVBSC574BLI 123523 65 DB15") (B "file TTH/BR4BVJBMHDFVCFI4WBPSL63W5TWXWVBSC574BLI 123523 65 DB15") (MAdcGet (mk_adcget (B "file") (B "TTH/BR4BVJBMHDFVCFI4WBPSL63W5TWXWVBSC574BLI") 123523 (65) false (Some 15%N))).
Proof. run. Qed.
Example files_7 : nmdc_case "ADCSND" (B "file TTH/BR4BVJBMHDFVCFI4WBPSL63W5TWXWVBSC574BLI 123523 65") (B "file TTH/BR4BVJBMHDFVCFI4WBPSL63W5TWXWVBSC574BLI 123523 65") (MAdcSnd (mk_adcsnd (B "file") (B "TTH/BR4BVJBMHDFVCFI4WBPSL63W5TWXWVBSC574BLI") 123523 65 false)).
Proof. run. Qed.
Example files_8 : nmdc_case "ADCSND" (B "tthl TTH/PT2BL57H4JJ5LHXBDA6CJ5KEOO5XEKNIFYINE7I 6342 7323") (B "tthl TTH/PT2BL57H4JJ5LHXBDA6CJ5KEOO5XEKNIFYINE7I 6342 7323") (MAdcSnd (mk_adcsnd (B "tthl") (B "TTH/PT2BL57H4JJ5LHXBDA6CJ5KEOO5XEKNIFYINE7I") 6342 7323 false)).
Proof. run. Qed.
Example files_9 : nmdc_case "Direction" (B "Download 12343") (B "Download 12343") (MDirection (mk_direction false 12343)).
Proof. run. Qed.
Example files_10 : nmdc_case "Direction" (B "Upload 6533") (B "Upload 6533") (MDirection (mk_direction true 6533)).
Proof. run. Qed.
(** nmdc/msg_hub_test.go *)
Example hub_1 : nmdc_case "FailOver" (B "example.com,example.org:5555,adc://example.net:6666") (B "example.com,example.org:5555,adc://example.net:6666") (MFailOver [B "example.com"; B "example.org:5555"; B "adc://example.net:6666"]).
Proof. run. Qed.
(** nmdc/msg_lock_test.go *)
Example lock_1 : nmdc_case "Lock" (B "EXTENDEDPROTOCOLABCABCABCABCABCABC") (B "EXTENDEDPROTOCOLABCABCABCABCABCABC") (MLock (mk_lock false (B "ABCABCABCABCABCABC") [] [])).
Proof. run. Qed.
Example lock_2 : nmdc_case "Lock" (B "EXTENDEDPROTOCOLABCABCABCABCABCABC Ref=dchub://example.org:411") (B "EXTENDEDPROTOCOLABCABCABCABCABCABC Ref=dchub://example.org:411") (MLock (mk_lock false (B "ABCABCABCABCABCABC") [] (B "dchub://example.org:411"))).
Proof. run. Qed.
Example lock_3 : nmdc_case "Lock" (B "EXTENDEDPROTOCOLABCABCABCABCABCABC Pk=DCPLUSPLUS0.777") (B "EXTENDEDPROTOCOLABCABCABCABCABCABC Pk=DCPLUSPLUS0.777") (MLock (mk_lock false (B "ABCABCABCABCABCABC") (B "DCPLUSPLUS0.777") [])).
Proof. run. Qed.
Example lock_4 : nmdc_case "Lock" (B "EXTENDEDPROTOCOLABCABCABCABCABCABC Pk=DCPLUSPLUS0.777Ref=dchub://example.org:411") (B "EXTENDEDPROTOCOLABCABCABCABCABCABC Pk=DCPLUSPLUS0.777Ref=dchub://example.org:411") (MLock (mk_lock false (B "ABCABCABCABCABCABC") (B "DCPLUSPLUS0.777") (B "dchub://example.org:411"))).
Proof. run. Qed.
Example lock_key_1 : lock_key (mk_lock false (B "_verlihub") (B "version0.9.8e-r2") []) = Ok [x75; xd1; xc0; x11; xb0; xa0; x10; x10; x41; x20; xd1; xb1; xb1; xc0; xc0; x30; x31; x92; x31; x71; xe1; x50; x10; xd1; x71].
Proof. vm_compute. reflexivity. Qed.
(** nmdc/msg_ping_test.go *)
Example ping_1 : nmdc_case "HubINFO" (B "OZERKI$dc.ozerki.pro$Main Russian D�++ Hub$5000$0$1$2721$PtokaX$") (B "OZERKI$dc.ozerki.pro$Main Russian D�++ Hub$5000$0$1$2721$PtokaX$$$") (MHubInfo (mk_hubinfo (B "OZERKI") (B "dc.ozerki.pro") (B "Main Russian D�++ Hub") 5000 0 1 2721 (B "PtokaX") [] [] [] [])).
Proof. run. Qed.
Example ping_2 : nmdc_case "HubINFO" (B "Angels vs Demons$dc.milenahub.ru$Cogitationis poenam nemo patitur.$20480$0$0$0$Verlihub 1.1.0.12$=FAUST= & KCAHDEP$Public HUB$CP1251") (B "Angels vs Demons$dc.milenahub.ru$Cogitationis poenam nemo patitur.$20480$0$0$0$Verlihub 1.1.0.12$=FAUST= &amp; KCAHDEP$Public HUB$CP1251") (MHubInfo (mk_hubinfo (B "Angels vs Demons") (B "dc.milenahub.ru") (B "Cogitationis poenam nemo patitur.") 20480 0 0 0 (B "Verlihub") (B "1.1.0.12") (B "=FAUST= & KCAHDEP") (B "Public HUB") (B "CP1251"))).
Proof. run. Qed.
Example ping_3 : nmdc_case "HubINFO" (B "hub name$dc.example.com:8000$hub desc$3000$32212254720$3$40$YnHub 1.0364$owner$desc 2$admin@example.com$") (B "hub name$dc.example.com:8000$hub desc$3000$32212254720$3$40$YnHub 1.0364$owner$desc 2$") (MHubInfo (mk_hubinfo (B "hub name") (B "dc.example.com:8000") (B "hub desc") 3000 32212254720 3 40 (B "YnHub") (B "1.0364") (B "owner") (B "desc 2") [])).
Proof. run. Qed.
(** nmdc/msg_search_test.go *)
Example search_1 : nmdc_case "Search" (B "192.168.1.5:412 T?T?500000?1?Gentoo$2005") (B "192.168.1.5:412 T?T?500000?1?Gentoo$2005") (MSearch (mk_search (B "192.168.1.5:412") [] true true 500000 1 (B "Gentoo 2005") None)).
Proof. run. Qed.
Example search_2 : nmdc_case "Search" (B "Hub:SomeNick F?T?0?9?TTH:TO32WPD6AQE7VA7654HEAM5GKFQGIL7F2BEKFNA") (B "Hub:SomeNick F?T?0?9?TTH:TO32WPD6AQE7VA7654HEAM5GKFQGIL7F2BEKFNA") (MSearch (mk_search [] (B "SomeNick") false true 0 9 [] (Some (tth "TO32WPD6AQE7VA7654HEAM5GKFQGIL7F2BEKFNA")))).
Proof. run. Qed.
Example search_3 : nmdc_case "Search" (B "Hub:SomeNick F?T?0?9?TTH:TO32WPD6AQE7VA7654HEAM5GKFQGIL7F2BEKFNA$") (B "Hub:SomeNick F?T?0?9?TTH:TO32WPD6AQE7VA7654HEAM5GKFQGIL7F2BEKFNA") (MSearch (mk_search [] (B "SomeNick") false true 0 9 [] (Some (tth "TO32WPD6AQE7VA7654HEAM5GKFQGIL7F2BEKFNA")))).
Proof. run. Qed.
Example search_4 : nmdc_case "Search" (B "Hub:SomeNick F?T?0?10?word") (B "Hub:SomeNick F?T?0?10?word") (MSearch (mk_search [] (B "SomeNick") false true 0 10 (B "word") None)).
Proof. run. Qed.
Example search_5 : nmdc_case "Search" (B "Hub:SomeNick F?T?0?1?magnet:?xt=urn:btih:493C8841D2058D79EA6F7D7103C48D9465B65D41&dn=some$name") (B "Hub:SomeNick F?T?0?1?magnet:?xt=urn:btih:493C8841D2058D79EA6F7D7103C48D9465B65D41&amp;dn=some$name") (MSearch (mk_search [] (B "SomeNick") false true 0 1 (B "magnet:?xt=urn:btih:493C8841D2058D79EA6F7D7103C48D9465B65D41&dn=some name") None)).
Proof. run. Qed.
Example search_6 : nmdc_case "SR" (B "User6 dir1\dir 2\pictures 0/4" ++ [x05] ++ B "Testhub (192.168.1.1)") (B "User6 dir1\dir 2\pictures 0/4" ++ [x05] ++ B "Testhub (192.168.1.1)") (MSR (mk_sr (B "User6") [B "dir1"; B "dir 2"; B "pictures"] true 0 0 4 (B "Testhub") None (B "192.168.1.1") [])).
Proof. run. Qed.
Example search_7 : nmdc_case "SR" (B "User1 dir\file 1.txt" ++ [x05] ++ B "437 3/4" ++ [x05] ++ B "Testhub (192.168.1.1:411)" ++ [x05] ++ B "User2") (B "User1 dir\file 1.txt" ++ [x05] ++ B "437 3/4" ++ [x05] ++ B "Testhub (192.168.1.1:411)" ++ [x05] ++ B "User2") (MSR (mk_sr (B "User1") [B "dir"; B "file 1.txt"] false 437 3 4 (B "Testhub") None (B "192.168.1.1:411") (B "User2"))).
Proof. run. Qed.
Example search_8 : nmdc_case "SR" (B "User1 Linux\kubuntu-18.04-desktop-amd64.iso" ++ [x05] ++ B "1868038144 3/3" ++ [x05] ++ B "TTH:BNQGWMXKUIAFAU3TV32I5U6SKNYMQBBNH4FELNQ (192.168.1.1:411)" ++ [x05] ++ B "User2") (B "User1 Linux\kubuntu-18.04-desktop-amd64.iso" ++ [x05] ++ B "1868038144 3/3" ++ [x05] ++ B "TTH:BNQGWMXKUIAFAU3TV32I5U6SKNYMQBBNH4FELNQ (192.168.1.1:411)" ++ [x05] ++ B "User2") (MSR (mk_sr (B "User1") [B "Linux"; B "kubuntu-18.04-desktop-amd64.iso"] false 1868038144 3 3 [] (Some (tth "BNQGWMXKUIAFAU3TV32I5U6SKNYMQBBNH4FELNQ")) (B "192.168.1.1:411") (B "User2"))).
Proof. run. Qed.
Example search_9 : nmdc_case "SR" (B "User1 dir\some file.dat" ++ [x05] ++ B "152374784 1/3" ++ [x05] ++ B "TTH:HRFQOVMYIGSSGXN4FDTOGWO4USC24BBVQLOKIQI (1.2.3.4:411)" ++ [x05] ++ B "User2") (B "User1 dir\some file.dat" ++ [x05] ++ B "152374784 1/3" ++ [x05] ++ B "TTH:HRFQOVMYIGSSGXN4FDTOGWO4USC24BBVQLOKIQI (1.2.3.4:411)" ++ [x05] ++ B "User2") (MSR (mk_sr (B "User1") [B "dir"; B "some file.dat"] false 152374784 1 3 [] (Some (tth "HRFQOVMYIGSSGXN4FDTOGWO4USC24BBVQLOKIQI")) (B "1.2.3.4:411") (B "User2"))).
Proof. run. Qed.
Example search_10 : nmdc_case "SA" (B "LWPNACQDBZRYXW3VHJVCJ64QBZNGHOHHHZWCLNQ 1.2.3.4:412") (B "LWPNACQDBZRYXW3VHJVCJ64QBZNGHOHHHZWCLNQ 1.2.3.4:412") (MSA (mk_sa (tth "LWPNACQDBZRYXW3VHJVCJ64QBZNGHOHHHZWCLNQ") (B "1.2.3.4:412"))).
Proof. run. Qed.
Example search_11 : nmdc_case "SP" (B "LWPNACQDBZRYXW3VHJVCJ64QBZNGHOHHHZWCLNQ user") (B "LWPNACQDBZRYXW3VHJVCJ64QBZNGHOHHHZWCLNQ user") (MSP (mk_sp (tth "LWPNACQDBZRYXW3VHJVCJ64QBZNGHOHHHZWCLNQ") (B "user"))).
Proof. run. Qed.
(** nmdc/msg_user_list_test.go *)
Example user_list_1 : nmdc_case "OpList" (B "$$") (B "$$") (MNames KOpList []).
Proof. run. Qed.
Example user_list_2 : nmdc_case "OpList" (B "Op 1$$") (B "Op 1$$") (MNames KOpList [B "Op 1"]).
Proof. run. Qed.
Example user_list_3 : nmdc_case "OpList" (B "Op 1$$Op 2$$") (B "Op 1$$Op 2$$") (MNames KOpList [B "Op 1"; B "Op 2"]).
Proof. run. Qed.
Example user_list_4 : nmdc_case "UserIP" (B "john doe 192.168.1.2$$user 2 192.168.1.3$$") (B "john doe 192.168.1.2$$user 2 192.168.1.3$$") (MUserIP [(B "john doe", B "192.168.1.2"); (B "user 2", B "192.168.1.3")]).
Proof. run. Qed.
(** nmdc/msg_user_test.go *)
Example user_1 : nmdc_case "MyINFO" (B "$ALL johndoe RU<ApexDC++ V:0.4.0,M:P,H:27/1/3,S:92,L:512>$ $LAN(T3)K$example@example.com$1234$") (B "$ALL johndoe RU<ApexDC++ V:0.4.0,M:P,H:27/1/3,S:92,L:512>$ $LAN(T3)K$example@example.com$1234$") (MMyInfo (mk_myinfo (B "johndoe") (B "RU") (B "ApexDC++") (B "0.4.0") "P" 27 1 3 92 [(B "L", B "512")] (B "LAN(T3)") "K" (B "example@example.com") 1234)).
Proof. run. Qed.
Example user_2 : nmdc_case "MyINFO" (B "$ALL verg P verg$ $0.005A$$$") (B "$ALL verg P verg< V:,M: ,H:0/0/0,S:0>$ $0.005A$$0$") (MMyInfo (mk_myinfo (B "verg") (B "P verg") [] [] x00 0 0 0 0 [] (B "0.005") "A" [] 0)).
Proof. run. Qed.
Example user_3 : nmdc_case "MyINFO" (B "$ALL whist RU [29]some desc<GreylynkDC++ v:2.3.5,$ $LAN(T1)A$$65075277005$") (B "$ALL whist RU [29]some desc<GreylynkDC++ V:2.3.5,M: ,H:0/0/0,S:0>$ $LAN(T1)A$$65075277005$") (MMyInfo (mk_myinfo (B "whist") (B "RU [29]some desc") (B "GreylynkDC++") (B "2.3.5") x00 0 0 0 0 [] (B "LAN(T1)") "A" [] 65075277005)).
Proof. run. Qed.
Example user_4 : nmdc_case "MyINFO" (B "$ALL vespa9347q1 <StrgDC++,M:A,H:1 /0/0,S:2>$ $0.01.$$37038592310$") (B "$ALL vespa9347q1 <StrgDC++ V:,M:A,H:1/0/0,S:2>$ $0.01.$$37038592310$") (MMyInfo (mk_myinfo (B "vespa9347q1") [] (B "StrgDC++") [] "A" 1 0 0 2 [] (B "0.01") "." [] 37038592310)).
Proof. run. Qed.
Example user_5 : nmdc_case "MyINFO" (B "$ALL #GlobalOpChat $ $$$0$") (B "$ALL #GlobalOpChat < V:,M: ,H:0/0/0,S:0>$ $" ++ [x01] ++ B "$$0$") (MMyInfo (mk_myinfo (B "#GlobalOpChat") [] [] [] x00 0 0 0 0 [] [] x00 [] 0)).
Proof. run. Qed.
Example user_6 : nmdc_case "MyINFO" (B "$ALL test @ HUB-Bot$ $BOT $mail (3.0.1)$BOT $") (B "$ALL test @ HUB-Bot< V:,M: ,H:0/0/0,S:0>$ $BOT $mail (3.0.1)$0$") (MMyInfo (mk_myinfo (B "test") (B "@ HUB-Bot") [] [] x00 0 0 0 0 [] (B "BOT") x20 (B "mail (3.0.1)") 0)).
Proof. run. Qed.
Example user_7 : nmdc_case "MyINFO" (B "$ALL -EA-Sports $P$$$0$") (B "$ALL -EA-Sports < V:,M:P,H:0/0/0,S:0>$ $" ++ [x01] ++ B "$$0$") (MMyInfo (mk_myinfo (B "-EA-Sports") [] [] [] "P" 0 0 0 0 [] [] x00 [] 0)).
Proof. run. Qed.
Example user_8 : nmdc_case "MyINFO" (B "$ALL N8611 <++ V:0.868,M:A,H:34,S:3>$A$0.005.$$27225945203$") (B "$ALL N8611 <++ V:0.868,M:A,H:34/0/0,S:3>$ $0.005.$$27225945203$") (MMyInfo (mk_myinfo (B "N8611") [] (B "++") (B "0.868") "A" 34 0 0 3 [] (B "0.005") "." [] 27225945203)).
Proof. run. Qed.
Example user_9 : nmdc_case "MyINFO" (B "$ALL user some,desc,<go-dcpp V:0.20.1,M:A,H:2/1/0,S:6><go-dcpp V:0.20.1,M:A,H:2/1/0,S:6>$ $" ++ [x04] ++ B "$$324882100000$") (B "$ALL user some,desc,<go-dcpp V:0.20.1,M:A,H:2/1/0,S:6><go-dcpp V:0.20.1,M:A,H:2/1/0,S:6>$ $" ++ [x04] ++ B "$$324882100000$") (MMyInfo (mk_myinfo (B "user") (B "some,desc,<go-dcpp V:0.20.1,M:A,H:2/1/0,S:6>") (B "go-dcpp") (B "0.20.1") "A" 2 1 0 6 [] [] x04 [] 324882100000)).
Proof. run. Qed.
(** nmdc/types_test.go *)
Example escaping : string_marshal None (B "text $&|") = Ok (B "text &#36;&amp;&#124;") /\ unescape_bytes (B "text &#36;&amp;&#124;") = B "text $&|".
Proof. run. Qed.

(** nmdc/reader_test.go: the messages read before io.EOF or another error, and that error *)
Definition no_zlib (z : unit) : zaction unit := ZLast [].
Fixpoint read_all (n : nat) (R : nreader unit unit) : list (option msg) * option error :=
  match n with
  | 0 => ([], None)
  | S n =>
      match read_msg no_zlib 500 tt R with
      | Some (Ok m, _, R') => let (l, e) := read_all n R' in (m :: l, e)
      | Some (Err e, _, _) => ([], Some e)
      | _ => ([], None)
      end
  end.
Definition reader_case (input : bytes) (expected : list msg) (e : error) : Prop :=
  read_all 10 (new_nreader [RD input None]) = (map Some expected, Some e).

Example reader_1 : reader_case [] [] EEOF.
Proof. vm_compute. reflexivity. Qed.
Example reader_2 : reader_case (B "|||") [] EEOF.
Proof. vm_compute. reflexivity. Qed.
Example reader_3 : reader_case (B "$|") [] (EProtocol "command name is empty").
Proof. vm_compute. reflexivity. Qed.
Example reader_4 : reader_case (B "$GetNickList|") [MNoArgs KGetNickList] EEOF.
Proof. vm_compute. reflexivity. Qed.
Example reader_5 : reader_case (B "$SomeCommand" ++ [x00] ++ B "|") [] (EProtocol "message should not contain null characters").
Proof. vm_compute. reflexivity. Qed.
Example reader_6 : reader_case (B "$Some" ++ [x09] ++ B "Command|") [] (EProtocol "command name should be in acsii").
Proof. vm_compute. reflexivity. Qed.
Example reader_7 : reader_case (B "$To: alice From: bob $<bob> hi|") [MPm (mk_pm (B "alice") (B "bob") (B "bob") (B "hi"))] EEOF.
Proof. vm_compute. reflexivity. Qed.
Example reader_8 : reader_case (B "<bob> text|") [MChat (mk_chat (B "bob") (B "text"))] EEOF.
Proof. vm_compute. reflexivity. Qed.
Example reader_9 : reader_case (B "<bob>text msg|<fred> msg2|") [MChat (mk_chat (B "bob") (B "text msg")); MChat (mk_chat (B "fred") (B "msg2"))] EEOF.
Proof. vm_compute. reflexivity. Qed.
Example reader_10 : reader_case (B "<b >b >> text|") [MChat (mk_chat (B "b >b >") (B "text"))] EEOF.
Proof. vm_compute. reflexivity. Qed.
Example reader_11 : reader_case (B "<bob>some text" ++ [x0d] ++ [x0a] ++ B "this is formatting>>> some more text|") [MChat (mk_chat (B "bob") (B "some text" ++ [x0d] ++ [x0a] ++ B "this is formatting>>> some more text"))] EEOF.
Proof. vm_compute. reflexivity. Qed.
Example reader_12 : reader_case (B "<bob>|text" ++ repeat " "%byte max_name ++ B "> |") [MChat (mk_chat (B "bob") []); MChat (mk_chat [] (B "text" ++ repeat " "%byte max_name ++ B "> "))] EEOF.
Proof. vm_compute. reflexivity. Qed.
Example reader_13 : reader_case (B "<bob>" ++ [x0a] ++ repeat " "%byte max_name ++ B "> |") [MChat (mk_chat (B "bob") (repeat " "%byte max_name ++ B "> "))] EEOF.
Proof. vm_compute. reflexivity. Qed.
Example reader_14 : reader_case (B "<> text|") [MChat (mk_chat [] (B "text"))] EEOF.
Proof. vm_compute. reflexivity. Qed.
