(** The tests of /repo evaluated in the model, generated by
    tools/gen_fidelity.py from /repo/*_test.go and /repo/samples. These are tests
    of the model, not proofs of properties: the values the authors of the library
    expect are the values the model computes. *)
From Coq Require Import QArith List.
From Verif Require Import GoStr GoTime Types Enums EnumTables Records Messages Codec Schema Document Xml Headers Wire Clients Samples.
Close Scope Q_scope.
Import ListNotations.

Definition bytes (l : list N) : str := map chr l.
Fixpoint doc (ls : list str) : str :=
  match ls with
  | [] => []
  | [l] => l
  | l :: ls' => l ++ nl :: doc ls'
  end.

(** checkResponseRoundTrip, response_test.go:139-151. *)
Definition round_trips (r : Response) : Prop :=
  match response_marshal r with
  | Some b => parse_response sample_env b = (Some r, None)
  | None => False
  end.

(** The expression ignoreSpacesRe, request_test.go:10: white space at the start
    and at the end of a line and line ends, for texts without white space at the
    end of a line. *)
Fixpoint squeeze (start : bool) (s : str) : str :=
  match s with
  | [] => []
  | c :: s' =>
      if Ascii.eqb c nl || Ascii.eqb c cr then squeeze true s'
      else if start && (Ascii.eqb c " "%char || Ascii.eqb c tab) then squeeze true s'
      else c :: squeeze false s'
  end.

(** xml.Unmarshal, for an input that is one element. *)
Definition xml_unmarshal (t : ty) (s : str) : option (interp t) :=
  a <- next_token (lex true s) ;;
  match fst a with
  | TStart sp nm => n <- read_element true [] (snd a) [(sp, nm, [])] ;; unmarshal sample_env t n (zero t)
  | _ => None
  end.

(** bank_test.go, TestMarshalBankStatementRequest. *)
Definition TestMarshalBankStatementRequest_client : client := Basic (mkBasicClient 8%N (bs "OFXGO") (bs "0001") false false [] None).
Definition TestMarshalBankStatementRequest_request : Request := set_client_fields (go_date (2006) (1) (15) (11) (23) (0) (0) (-18000) (bs "EST")) TestMarshalBankStatementRequest_client
  (mkRequest [] 0%N (mkSignonRequest zero_time (bs "myusername") (bs "Pa$$word") [] false [] (bs "BNK") (bs "1987") [] [] []) (mkSlots [] [MsgStatementRequest (mkStatementRequest (bs "123") [] [] (mkBankAcct (bs "318398732") [] (bs "78346129") 1%N []) None None true false false)] [] [] [] [] [] [] [] [] [] [] [] []) false false).
Example TestMarshalBankStatementRequest : option_map (fun p => squeeze true (fst p)) (request_marshal TestMarshalBankStatementRequest_request) = Some (bs "<?xml version=""1.0"" encoding=""UTF-8"" standalone=""no""?><?OFX OFXHEADER=""200"" VERSION=""203"" SECURITY=""NONE"" OLDFILEUID=""NONE"" NEWFILEUID=""NONE""?><OFX><SIGNONMSGSRQV1><SONRQ><DTCLIENT>20060115112300.000[-5:EST]</DTCLIENT><USERID>myusername</USERID><USERPASS>Pa$$word</USERPASS><LANGUAGE>ENG</LANGUAGE><FI><ORG>BNK</ORG><FID>1987</FID></FI><APPID>OFXGO</APPID><APPVER>0001</APPVER></SONRQ></SIGNONMSGSRQV1><BANKMSGSRQV1><STMTTRNRQ><TRNUID>123</TRNUID><STMTRQ><BANKACCTFROM><BANKID>318398732</BANKID><ACCTID>78346129</ACCTID><ACCTTYPE>CHECKING</ACCTTYPE></BANKACCTFROM><INCTRAN><INCLUDE>Y</INCLUDE></INCTRAN></STMTRQ></STMTTRNRQ></BANKMSGSRQV1></OFX>").
Proof. vm_compute. reflexivity. Qed.

(** bank_test.go, TestMarshalBankStatementRequest103. *)
Definition TestMarshalBankStatementRequest103_client : client := Basic (mkBasicClient 2%N (bs "OFXGO") (bs "0001") false false [] None).
Definition TestMarshalBankStatementRequest103_request : Request := set_client_fields (go_date (2006) (1) (15) (11) (23) (0) (0) (-18000) (bs "EST")) TestMarshalBankStatementRequest103_client
  (mkRequest [] 0%N (mkSignonRequest zero_time (bs "myusername") (bs "Pa$$word") [] false [] (bs "BNK") (bs "1987") [] [] []) (mkSlots [] [MsgStatementRequest (mkStatementRequest (bs "123") [] [] (mkBankAcct (bs "318398732") [] (bs "78346129") 1%N []) None None true false false)] [] [] [] [] [] [] [] [] [] [] [] []) false false).
Example TestMarshalBankStatementRequest103 : option_map (fun p => squeeze true (fst p)) (request_marshal TestMarshalBankStatementRequest103_request) = Some (bs "OFXHEADER:100DATA:OFXSGMLVERSION:103SECURITY:NONEENCODING:USASCIICHARSET:1252COMPRESSION:NONEOLDFILEUID:NONENEWFILEUID:NONE<OFX><SIGNONMSGSRQV1><SONRQ><DTCLIENT>20060115112300.000[-5:EST]<USERID>myusername<USERPASS>Pa$$word<LANGUAGE>ENG<FI><ORG>BNK<FID>1987</FI><APPID>OFXGO<APPVER>0001</SONRQ></SIGNONMSGSRQV1><BANKMSGSRQV1><STMTTRNRQ><TRNUID>123<STMTRQ><BANKACCTFROM><BANKID>318398732<ACCTID>78346129<ACCTTYPE>CHECKING</BANKACCTFROM><INCTRAN><INCLUDE>Y</INCTRAN></STMTRQ></STMTTRNRQ></BANKMSGSRQV1></OFX>").
Proof. vm_compute. reflexivity. Qed.

(** bank_test.go, TestUnmarshalBankStatementResponse. *)
Definition TestUnmarshalBankStatementResponse_input : str := (doc [(bs "<?xml version=""1.0"" encoding=""UTF-8"" standalone=""no""?>");
  (bs "<?OFX OFXHEADER=""200"" VERSION=""203"" SECURITY=""NONE"" OLDFILEUID=""NONE"" NEWFILEUID=""NONE""?>");
  (bs "<OFX>");
  (bs "	<SIGNONMSGSRSV1>");
  (bs "		<SONRS>");
  (bs "			<STATUS>");
  (bs "				<CODE>0</CODE>");
  (bs "				<SEVERITY>INFO</SEVERITY>");
  (bs "			</STATUS>");
  (bs "			<DTSERVER>20060115112303</DTSERVER>");
  (bs "			<LANGUAGE>ENG</LANGUAGE>");
  (bs "			<DTPROFUP>20050221091300</DTPROFUP>");
  (bs "			<DTACCTUP>20060102160000</DTACCTUP>");
  (bs "			<FI>");
  (bs "				<ORG>BNK</ORG>");
  (bs "				<FID>1987</FID>");
  (bs "			</FI>");
  (bs "		</SONRS>");
  (bs "	</SIGNONMSGSRSV1>");
  (bs "	<BANKMSGSRSV1>");
  (bs "		<STMTTRNRS>");
  (bs "			<TRNUID>1001</TRNUID>");
  (bs "			<STATUS>");
  (bs "				<CODE>0</CODE>");
  (bs "				<SEVERITY>INFO</SEVERITY>");
  (bs "			</STATUS>");
  (bs "			<STMTRS>");
  (bs "				<CURDEF>USD</CURDEF>");
  (bs "				<BANKACCTFROM>");
  (bs "					<BANKID>318398732</BANKID>");
  (bs "					<ACCTID>78346129</ACCTID>");
  (bs "					<ACCTTYPE>CHECKING</ACCTTYPE>");
  (bs "				</BANKACCTFROM>");
  (bs "				<BANKTRANLIST>");
  (bs "					<DTSTART>20060101</DTSTART>");
  (bs "					<DTEND>20060115</DTEND>");
  (bs "					<STMTTRN>");
  (bs "						<TRNTYPE>CHECK</TRNTYPE>");
  (bs "						<DTPOSTED>20060104</DTPOSTED>");
  (bs "						<TRNAMT>-200.00</TRNAMT>");
  (bs "						<FITID>00592</FITID>");
  (bs "						<CHECKNUM>2002</CHECKNUM>");
  (bs "					</STMTTRN>");
  (bs "					<STMTTRN>");
  (bs "						<TRNTYPE>ATM</TRNTYPE>");
  (bs "						<DTPOSTED>20060112</DTPOSTED>");
  (bs "						<DTUSER>20060112</DTUSER>");
  (bs "						<TRNAMT>-300.00</TRNAMT>");
  (bs "						<FITID>00679</FITID>");
  (bs "					</STMTTRN>");
  (bs "				</BANKTRANLIST>");
  (bs "				<LEDGERBAL>");
  (bs "					<BALAMT>200.29</BALAMT>");
  (bs "					<DTASOF>200601141600</DTASOF>");
  (bs "				</LEDGERBAL>");
  (bs "				<AVAILBAL>");
  (bs "					<BALAMT>200.29</BALAMT>");
  (bs "					<DTASOF>200601141600</DTASOF>");
  (bs "				</AVAILBAL>");
  (bs "			</STMTRS>");
  (bs "		</STMTTRNRS>");
  (bs "	</BANKMSGSRSV1>");
  (bs "</OFX>")]).
Definition TestUnmarshalBankStatementResponse_expected : Response := mkResponse 8%N (mkSignonResponse (mkStatus (0)%Z (bs "INFO") []) (go_date (2006) (1) (15) (11) (23) (3) (0) (0) (bs "GMT")) [] None (bs "ENG") (Some (go_date (2005) (2) (21) (9) (13) (0) (0) (0) (bs "GMT"))) (Some (go_date (2006) (1) (2) (16) (0) (0) (0) (0) (bs "GMT"))) (bs "BNK") (bs "1987") [] []) (mkSlots [] [MsgStatementResponse (mkStatementResponse (bs "1001") (mkStatus (0)%Z (bs "INFO") []) [] (bs "USD") (mkBankAcct (bs "318398732") [] (bs "78346129") 1%N []) (Some (mkTransactionList (go_date (2006) (1) (1) (0) (0) (0) (0) (0) (bs "GMT")) (go_date (2006) (1) (15) (0) (0) (0) (0) (0) (bs "GMT")) [(mkTransaction 11%N (go_date (2006) (1) (4) (0) (0) (0) (0) (0) (bs "GMT")) None None (-200 # 1)%Q (bs "00592") [] 0%N [] (bs "2002") [] (0)%Z [] [] None [] None None [] [] None None 0%N); (mkTransaction 8%N (go_date (2006) (1) (12) (0) (0) (0) (0) (0) (bs "GMT")) (Some (go_date (2006) (1) (12) (0) (0) (0) (0) (0) (bs "GMT"))) None (-300 # 1)%Q (bs "00679") [] 0%N [] [] [] (0)%Z [] [] None [] None None [] [] None None 0%N)])) None (20029 # 100)%Q (go_date (2006) (1) (14) (16) (0) (0) (0) (0) (bs "GMT")) (Some (20029 # 100)%Q) (Some (go_date (2006) (1) (14) (16) (0) (0) (0) (0) (bs "GMT"))) None None [] [])] [] [] [] [] [] [] [] [] [] [] [] []).
Example TestUnmarshalBankStatementResponse : parse_response sample_env TestUnmarshalBankStatementResponse_input = (Some TestUnmarshalBankStatementResponse_expected, None).
Proof. vm_compute. reflexivity. Qed.
Example TestUnmarshalBankStatementResponse_round_trip : round_trips TestUnmarshalBankStatementResponse_expected.
Proof. vm_compute. reflexivity. Qed.

(** creditcard_test.go, TestMarshalCCStatementRequest. *)
Definition TestMarshalCCStatementRequest_client : client := Basic (mkBasicClient 8%N (bs "OFXGO") (bs "0001") false false [] None).
Definition TestMarshalCCStatementRequest_request : Request := set_client_fields (go_date (2017) (3) (31) (15) (38) (48) (0) (0) (bs "GMT")) TestMarshalCCStatementRequest_client
  (mkRequest [] 0%N (mkSignonRequest zero_time (bs "myusername") (bs "Pa$$word") [] false [] (bs "BNK") (bs "1987") [] [] []) (mkSlots [] [] [MsgCCStatementRequest (mkCCStatementRequest (bs "913846") [] [] (mkCCAcct (bs "XXXXXXXXXXXX1234") []) (Some (go_date (2017) (1) (1) (0) (0) (0) (0) (0) (bs "GMT"))) None true false false)] [] [] [] [] [] [] [] [] [] [] []) false false).
Example TestMarshalCCStatementRequest : option_map (fun p => squeeze true (fst p)) (request_marshal TestMarshalCCStatementRequest_request) = Some (bs "<?xml version=""1.0"" encoding=""UTF-8"" standalone=""no""?><?OFX OFXHEADER=""200"" VERSION=""203"" SECURITY=""NONE"" OLDFILEUID=""NONE"" NEWFILEUID=""NONE""?><OFX><SIGNONMSGSRQV1><SONRQ><DTCLIENT>20170331153848.000[0:GMT]</DTCLIENT><USERID>myusername</USERID><USERPASS>Pa$$word</USERPASS><LANGUAGE>ENG</LANGUAGE><FI><ORG>BNK</ORG><FID>1987</FID></FI><APPID>OFXGO</APPID><APPVER>0001</APPVER></SONRQ></SIGNONMSGSRQV1><CREDITCARDMSGSRQV1><CCSTMTTRNRQ><TRNUID>913846</TRNUID><CCSTMTRQ><CCACCTFROM><ACCTID>XXXXXXXXXXXX1234</ACCTID></CCACCTFROM><INCTRAN><DTSTART>20170101000000.000[0:GMT]</DTSTART><INCLUDE>Y</INCLUDE></INCTRAN></CCSTMTRQ></CCSTMTTRNRQ></CREDITCARDMSGSRQV1></OFX>").
Proof. vm_compute. reflexivity. Qed.

(** creditcard_test.go, TestUnmarshalCCStatementResponse102. *)
Definition TestUnmarshalCCStatementResponse102_input : str := (doc [(bs "OFXHEADER:100");
  (bs "DATA:OFXSGML");
  (bs "VERSION:102");
  (bs "SECURITY:NONE");
  (bs "ENCODING:USASCII");
  (bs "CHARSET:1252");
  (bs "COMPRESSION:NONE");
  (bs "OLDFILEUID:NONE");
  (bs "NEWFILEUID:NONE");
  [];
  (bs "<OFX><SIGNONMSGSRSV1><SONRS><STATUS><CODE>0<SEVERITY>INFO<MESSAGE>SUCCESS</STATUS><DTSERVER>20170331154648.331[-4:EDT]<LANGUAGE>ENG<FI><ORG>01<FID>81729</FI></SONRS></SIGNONMSGSRSV1><CREDITCARDMSGSRSV1><CCSTMTTRNRS><TRNUID>59e850ad-7448-b4ce-4b71-29057763b306<STATUS><CODE>0<SEVERITY>INFO</STATUS><CCSTMTRS><CURDEF>USD<CCACCTFROM><ACCTID>9283744488463775</CCACCTFROM><BANKTRANLIST><DTSTART>20161201154648.688[-5:EST]<DTEND>20170331154648.688[-4:EDT]<STMTTRN><TRNTYPE>DEBIT<DTPOSTED>20170209120000[0:GMT]<TRNAMT>-7.96<FITID>2017020924435657040207171600195<NAME>SLICE OF NY</STMTTRN><STMTTRN><TRNTYPE>CREDIT<DTPOSTED>20161228120000[0:GMT]<TRNAMT>3830.46<FITID>2016122823633637200000258482730<NAME>Payment Thank You Electro</STMTTRN><STMTTRN><TRNTYPE>DEBIT<DTPOSTED>20170327120000[0:GMT]<TRNAMT>-17.7<FITID>2017032724445727085300442885680<NAME>KROGER FUEL #9999</STMTTRN></BANKTRANLIST><LEDGERBAL><BALAMT>-9334<DTASOF>20170331080000.000[-4:EDT]</LEDGERBAL><AVAILBAL><BALAMT>7630.17<DTASOF>20170331080000.000[-4:EDT]</AVAILBAL></CCSTMTRS></CCSTMTTRNRS></CREDITCARDMSGSRSV1></OFX>")]).
Definition TestUnmarshalCCStatementResponse102_expected : Response := mkResponse 1%N (mkSignonResponse (mkStatus (0)%Z (bs "INFO") (bs "SUCCESS")) (go_date (2017) (3) (31) (15) (46) (48) (331000000) (-14400) (bs "EDT")) [] None (bs "ENG") None None (bs "01") (bs "81729") [] []) (mkSlots [] [] [MsgCCStatementResponse (mkCCStatementResponse (bs "59e850ad-7448-b4ce-4b71-29057763b306") (mkStatus (0)%Z (bs "INFO") []) [] (bs "USD") (mkCCAcct (bs "9283744488463775") []) (Some (mkTransactionList (go_date (2016) (12) (1) (15) (46) (48) (688000000) (-18000) (bs "EST")) (go_date (2017) (3) (31) (15) (46) (48) (688000000) (-14400) (bs "EDT")) [(mkTransaction 2%N (go_date (2017) (2) (9) (12) (0) (0) (0) (0) (bs "GMT")) None None (-199 # 25)%Q (bs "2017020924435657040207171600195") [] 0%N [] [] [] (0)%Z [] (bs "SLICE OF NY") None [] None None [] [] None None 0%N); (mkTransaction 1%N (go_date (2016) (12) (28) (12) (0) (0) (0) (0) (bs "GMT")) None None (191523 # 50)%Q (bs "2016122823633637200000258482730") [] 0%N [] [] [] (0)%Z [] (bs "Payment Thank You Electro") None [] None None [] [] None None 0%N); (mkTransaction 2%N (go_date (2017) (3) (27) (12) (0) (0) (0) (0) (bs "GMT")) None None (-177 # 10)%Q (bs "2017032724445727085300442885680") [] 0%N [] [] [] (0)%Z [] (bs "KROGER FUEL #9999") None [] None None [] [] None None 0%N)])) (-9334 # 1)%Q (go_date (2017) (3) (31) (8) (0) (0) (0) (-14400) (bs "EDT")) (Some (763017 # 100)%Q) (Some (go_date (2017) (3) (31) (8) (0) (0) (0) (-14400) (bs "EDT"))) (0 # 1)%Q (0 # 1)%Q (0 # 1)%Q (0 # 1)%Q [] (0 # 1)%Q (0 # 1)%Q [] [])] [] [] [] [] [] [] [] [] [] [] []).
Example TestUnmarshalCCStatementResponse102 : parse_response sample_env TestUnmarshalCCStatementResponse102_input = (Some TestUnmarshalCCStatementResponse102_expected, None).
Proof. vm_compute. reflexivity. Qed.
Example TestUnmarshalCCStatementResponse102_round_trip : round_trips TestUnmarshalCCStatementResponse102_expected.
Proof. vm_compute. reflexivity. Qed.

(** invstmt_test.go, TestMarshalInvStatementRequest. *)
Definition TestMarshalInvStatementRequest_client : client := Basic (mkBasicClient 8%N (bs "MYAPP") (bs "1234") false false [] None).
Definition TestMarshalInvStatementRequest_request : Request := set_client_fields (go_date (2016) (2) (24) (13) (19) (5) (0) (-18000) (bs "EST")) TestMarshalInvStatementRequest_client
  (mkRequest [] 0%N (mkSignonRequest zero_time (bs "1998124") (bs "Sup3eSekrit") [] false [] (bs "First Bank") (bs "01") [] [] []) (mkSlots [] [] [] [] [MsgInvStatementRequest (mkInvStatementRequest (bs "382827d6-e2d0-4396-bf3b-665979285420") [] [] (mkInvAcct (bs "fi.example.com") (bs "82736664")) (Some (go_date (2016) (1) (1) (0) (0) (0) (0) (-18000) (bs "EST"))) None true true None true true false false false)] [] [] [] [] [] [] [] [] []) false false).
Example TestMarshalInvStatementRequest : option_map (fun p => squeeze true (fst p)) (request_marshal TestMarshalInvStatementRequest_request) = Some (bs "<?xml version=""1.0"" encoding=""UTF-8"" standalone=""no""?><?OFX OFXHEADER=""200"" VERSION=""203"" SECURITY=""NONE"" OLDFILEUID=""NONE"" NEWFILEUID=""NONE""?><OFX><SIGNONMSGSRQV1><SONRQ><DTCLIENT>20160224131905.000[-5:EST]</DTCLIENT><USERID>1998124</USERID><USERPASS>Sup3eSekrit</USERPASS><LANGUAGE>ENG</LANGUAGE><FI><ORG>First Bank</ORG><FID>01</FID></FI><APPID>MYAPP</APPID><APPVER>1234</APPVER></SONRQ></SIGNONMSGSRQV1><INVSTMTMSGSRQV1><INVSTMTTRNRQ><TRNUID>382827d6-e2d0-4396-bf3b-665979285420</TRNUID><INVSTMTRQ><INVACCTFROM><BROKERID>fi.example.com</BROKERID><ACCTID>82736664</ACCTID></INVACCTFROM><INCTRAN><DTSTART>20160101000000.000[-5:EST]</DTSTART><INCLUDE>Y</INCLUDE></INCTRAN><INCOO>Y</INCOO><INCPOS><INCLUDE>Y</INCLUDE></INCPOS><INCBAL>Y</INCBAL></INVSTMTRQ></INVSTMTTRNRQ></INVSTMTMSGSRQV1></OFX>").
Proof. vm_compute. reflexivity. Qed.

(** invstmt_test.go, TestUnmarshalInvStatementResponse. *)
Definition TestUnmarshalInvStatementResponse_input : str := (doc [(bs "<?xml version=""1.0"" encoding=""UTF-8"" standalone=""no""?>");
  (bs "<?OFX OFXHEADER=""200"" VERSION=""203"" SECURITY=""NONE"" OLDFILEUID=""NONE"" NEWFILEUID=""NONE""?>");
  (bs "<OFX>");
  (bs "	<SIGNONMSGSRSV1>");
  (bs "		<SONRS>");
  (bs "			<STATUS>");
  (bs "				<CODE>0</CODE>");
  (bs "				<SEVERITY>INFO</SEVERITY>");
  (bs "			</STATUS>");
  (bs "			<DTSERVER>20170401201244</DTSERVER>");
  (bs "			<LANGUAGE>ENG</LANGUAGE>");
  (bs "			<FI>");
  (bs "				<ORG>INVSTRUS</ORG>");
  (bs "				<FID>9999</FID>");
  (bs "			</FI>");
  (bs "		</SONRS>");
  (bs "	</SIGNONMSGSRSV1>");
  (bs "	<INVSTMTMSGSRSV1>");
  (bs "		<INVSTMTTRNRS>");
  (bs "			<TRNUID>1a0117ad-692b-4c6a-a21b-020d37d34d49</TRNUID>");
  (bs "			<STATUS>");
  (bs "				<CODE>0</CODE>");
  (bs "				<SEVERITY>INFO</SEVERITY>");
  (bs "			</STATUS>");
  (bs "			<INVSTMTRS>");
  (bs "				<DTASOF>20170331000000</DTASOF>");
  (bs "				<CURDEF>USD</CURDEF>");
  (bs "				<INVACCTFROM>");
  (bs "					<BROKERID>invstrus.com</BROKERID>");
  (bs "					<ACCTID>91827364</ACCTID>");
  (bs "				</INVACCTFROM>");
  (bs "				<INVTRANLIST>");
  (bs "					<DTSTART>20170101000000</DTSTART>");
  (bs "					<DTEND>20170331000000</DTEND>");
  (bs "					<BUYSTOCK>");
  (bs "						<INVBUY>");
  (bs "							<INVTRAN>");
  (bs "								<FITID>729483191</FITID>");
  (bs "								<DTTRADE>20170203</DTTRADE>");
  (bs "								<DTSETTLE>20170207</DTSETTLE>");
  (bs "							</INVTRAN>");
  (bs "							<SECID>");
  (bs "								<UNIQUEID>78462F103</UNIQUEID>");
  (bs "								<UNIQUEIDTYPE>CUSIP</UNIQUEIDTYPE>");
  (bs "							</SECID>");
  (bs "							<UNITS>100</UNITS>");
  (bs "							<UNITPRICE>229.00</UNITPRICE>");
  (bs "							<COMMISSION>9.00</COMMISSION>");
  (bs "							<TOTAL>-22909.00</TOTAL>");
  (bs "							<SUBACCTSEC>CASH</SUBACCTSEC>");
  (bs "							<SUBACCTFUND>CASH</SUBACCTFUND>");
  (bs "						</INVBUY>");
  (bs "						<BUYTYPE>BUY</BUYTYPE>");
  (bs "					</BUYSTOCK>");
  (bs "					<INVBANKTRAN>");
  (bs "						<STMTTRN>");
  (bs "							<TRNTYPE>CREDIT</TRNTYPE>");
  (bs "							<DTPOSTED>20170120</DTPOSTED>");
  (bs "							<DTUSER>20170118</DTUSER>");
  (bs "							<DTAVAIL>20170123</DTAVAIL>");
  (bs "							<TRNAMT>22000.00</TRNAMT>");
  (bs "							<FITID>993838</FITID>");
  (bs "							<NAME>DEPOSIT</NAME>");
  (bs "							<MEMO>CHECK 19980</MEMO>");
  (bs "						</STMTTRN>");
  (bs "						<SUBACCTFUND>CASH</SUBACCTFUND>");
  (bs "					</INVBANKTRAN>");
  (bs "				</INVTRANLIST>");
  (bs "				<INVPOSLIST>");
  (bs "					<POSSTOCK>");
  (bs "						<INVPOS>");
  (bs "							<SECID>");
  (bs "								<UNIQUEID>78462F103</UNIQUEID>");
  (bs "								<UNIQUEIDTYPE>CUSIP</UNIQUEIDTYPE>");
  (bs "							</SECID>");
  (bs "							<HELDINACCT>CASH</HELDINACCT>");
  (bs "							<POSTYPE>LONG</POSTYPE>");
  (bs "							<UNITS>200</UNITS>");
  (bs "							<UNITPRICE>235.74</UNITPRICE>");
  (bs "							<MKTVAL>47148.00</MKTVAL>");
  (bs "							<DTPRICEASOF>20170331160000</DTPRICEASOF>");
  (bs "							<MEMO>Price as of previous close</MEMO>");
  (bs "						</INVPOS>");
  (bs "					</POSSTOCK>");
  (bs "					<POSOPT>");
  (bs "						<INVPOS>");
  (bs "							<SECID>");
  (bs "								<UNIQUEID>129887339</UNIQUEID>");
  (bs "								<UNIQUEIDTYPE>CUSIP</UNIQUEIDTYPE>");
  (bs "							</SECID>");
  (bs "							<HELDINACCT>CASH</HELDINACCT>");
  (bs "							<POSTYPE>LONG</POSTYPE>");
  (bs "							<UNITS>1</UNITS>");
  (bs "							<UNITPRICE>3</UNITPRICE>");
  (bs "							<MKTVAL>300</MKTVAL>");
  (bs "							<DTPRICEASOF>20170331160000</DTPRICEASOF>");
  (bs "						</INVPOS>");
  (bs "					</POSOPT>");
  (bs "				</INVPOSLIST>");
  (bs "				<INVBAL>");
  (bs "					<AVAILCASH>16.73</AVAILCASH>");
  (bs "					<MARGINBALANCE>-819.20</MARGINBALANCE>");
  (bs "					<SHORTBALANCE>0</SHORTBALANCE>");
  (bs "					<BALLIST>");
  (bs "						<BAL>");
  (bs "							<NAME>Sweep Int Rate</NAME>");
  (bs "							<DESC>Current interest rate for sweep account balances</DESC>");
  (bs "							<BALTYPE>PERCENT</BALTYPE>");
  (bs "							<VALUE>0.25</VALUE>");
  (bs "							<DTASOF>20170401</DTASOF>");
  (bs "						</BAL>");
  (bs "					</BALLIST>");
  (bs "				</INVBAL>");
  (bs "				<INVOOLIST>");
  (bs "					<OOBUYMF>");
  (bs "						<OO>");
  (bs "							<FITID>76464632</FITID>");
  (bs "							<SECID>");
  (bs "								<UNIQUEID>922908645</UNIQUEID>");
  (bs "								<UNIQUEIDTYPE>CUSIP</UNIQUEIDTYPE>");
  (bs "							</SECID>");
  (bs "							<DTPLACED>20170310124445</DTPLACED>");
  (bs "							<UNITS>10</UNITS>");
  (bs "							<SUBACCT>CASH</SUBACCT>");
  (bs "							<DURATION>GOODTILCANCEL</DURATION>");
  (bs "							<RESTRICTION>NONE</RESTRICTION>");
  (bs "							<LIMITPRICE>168.50</LIMITPRICE>");
  (bs "						</OO>");
  (bs "						<BUYTYPE>BUY</BUYTYPE>");
  (bs "						<UNITTYPE>SHARES</UNITTYPE>");
  (bs "					</OOBUYMF>");
  (bs "					<OOBUYSTOCK>");
  (bs "						<OO>");
  (bs "							<FITID>999387423</FITID>");
  (bs "							<SECID>");
  (bs "								<UNIQUEID>899422348</UNIQUEID>");
  (bs "								<UNIQUEIDTYPE>CUSIP</UNIQUEIDTYPE>");
  (bs "							</SECID>");
  (bs "							<DTPLACED>20170324031900</DTPLACED>");
  (bs "							<UNITS>25</UNITS>");
  (bs "							<SUBACCT>CASH</SUBACCT>");
  (bs "							<DURATION>GOODTILCANCEL</DURATION>");
  (bs "							<RESTRICTION>ALLORNONE</RESTRICTION>");
  (bs "							<LIMITPRICE>19.75</LIMITPRICE>");
  (bs "						</OO>");
  (bs "						<BUYTYPE>BUY</BUYTYPE>");
  (bs "					</OOBUYSTOCK>");
  (bs "				</INVOOLIST>");
  (bs "			</INVSTMTRS>");
  (bs "		</INVSTMTTRNRS>");
  (bs "	</INVSTMTMSGSRSV1>");
  (bs "	<SECLISTMSGSRSV1>");
  (bs "		<SECLIST>");
  (bs "			<STOCKINFO>");
  (bs "				<SECINFO>");
  (bs "					<SECID>");
  (bs "						<UNIQUEID>78462F103</UNIQUEID>");
  (bs "						<UNIQUEIDTYPE>CUSIP</UNIQUEIDTYPE>");
  (bs "					</SECID>");
  (bs "					<SECNAME>S&amp;P 500 ETF</SECNAME>");
  (bs "					<TICKER>SPY</TICKER>");
  (bs "					<FIID>99184</FIID>");
  (bs "				</SECINFO>");
  (bs "				<YIELD>1.92</YIELD>");
  (bs "				<ASSETCLASS>OTHER</ASSETCLASS>");
  (bs "			</STOCKINFO>");
  (bs "			<OPTINFO>");
  (bs "				<SECINFO>");
  (bs "					<SECID>");
  (bs "						<UNIQUEID>129887339</UNIQUEID>");
  (bs "						<UNIQUEIDTYPE>CUSIP</UNIQUEIDTYPE>");
  (bs "					</SECID>");
  (bs "					<SECNAME>John's Fertilizer Puts</SECNAME>");
  (bs "					<TICKER>FERTP</TICKER>");
  (bs "					<FIID>882919</FIID>");
  (bs "				</SECINFO>");
  (bs "				<OPTTYPE>PUT</OPTTYPE>");
  (bs "				<STRIKEPRICE>79.00</STRIKEPRICE>");
  (bs "				<DTEXPIRE>20170901</DTEXPIRE>");
  (bs "				<SHPERCTRCT>100</SHPERCTRCT>");
  (bs "				<SECID>");
  (bs "					<UNIQUEID>983322180</UNIQUEID>");
  (bs "					<UNIQUEIDTYPE>CUSIP</UNIQUEIDTYPE>");
  (bs "				</SECID>");
  (bs "				<ASSETCLASS>LARGESTOCK</ASSETCLASS>");
  (bs "			</OPTINFO>");
  (bs "			<STOCKINFO>");
  (bs "				<SECINFO>");
  (bs "					<SECID>");
  (bs "						<UNIQUEID>899422348</UNIQUEID>");
  (bs "						<UNIQUEIDTYPE>CUSIP</UNIQUEIDTYPE>");
  (bs "					</SECID>");
  (bs "					<SECNAME>Whatchamacallit, Inc.</SECNAME>");
  (bs "					<TICKER>WHAT</TICKER>");
  (bs "					<FIID>883897</FIID>");
  (bs "				</SECINFO>");
  (bs "				<YIELD>17</YIELD>");
  (bs "				<ASSETCLASS>SMALLSTOCK</ASSETCLASS>");
  (bs "			</STOCKINFO>");
  (bs "			<MFINFO>");
  (bs "				<SECINFO>");
  (bs "					<SECID>");
  (bs "						<UNIQUEID>922908645</UNIQUEID>");
  (bs "						<UNIQUEIDTYPE>CUSIP</UNIQUEIDTYPE>");
  (bs "					</SECID>");
  (bs "					<SECNAME>Mid-Cap Index Fund Admiral Shares</SECNAME>");
  (bs "					<TICKER>VIMAX</TICKER>");
  (bs "				</SECINFO>");
  (bs "			</MFINFO>");
  (bs "			<DEBTINFO>");
  (bs "				<SECINFO>");
  (bs "					<SECID>");
  (bs "						<UNIQUEID>99182828</UNIQUEID>");
  (bs "						<UNIQUEIDTYPE>CUSIP</UNIQUEIDTYPE>");
  (bs "					</SECID>");
  (bs "					<SECNAME>Someone's Class B Debt</SECNAME>");
  (bs "				</SECINFO>");
  (bs "				<PARVALUE>100.29</PARVALUE>");
  (bs "				<DEBTTYPE>COUPON</DEBTTYPE>");
  (bs "				<DTCOUPON>20170901</DTCOUPON>");
  (bs "				<COUPONFREQ>QUARTERLY</COUPONFREQ>");
  (bs "			</DEBTINFO>");
  (bs "			<OTHERINFO>");
  (bs "				<SECINFO>");
  (bs "					<SECID>");
  (bs "						<UNIQUEID>88181818</UNIQUEID>");
  (bs "						<UNIQUEIDTYPE>CUSIP</UNIQUEIDTYPE>");
  (bs "					</SECID>");
  (bs "					<SECNAME>Foo Bar</SECNAME>");
  (bs "				</SECINFO>");
  (bs "				<TYPEDESC>Don't know what this is</TYPEDESC>");
  (bs "			</OTHERINFO>");
  (bs "		</SECLIST>");
  (bs "	</SECLISTMSGSRSV1>");
  (bs "</OFX>")]).
Definition TestUnmarshalInvStatementResponse_expected : Response := mkResponse 8%N (mkSignonResponse (mkStatus (0)%Z (bs "INFO") []) (go_date (2017) (4) (1) (20) (12) (44) (0) (0) (bs "GMT")) [] None (bs "ENG") None None (bs "INVSTRUS") (bs "9999") [] []) (mkSlots [] [] [] [] [MsgInvStatementResponse (mkInvStatementResponse (bs "1a0117ad-692b-4c6a-a21b-020d37d34d49") (mkStatus (0)%Z (bs "INFO") []) [] (go_date (2017) (3) (31) (0) (0) (0) (0) (0) (bs "GMT")) (bs "USD") (mkInvAcct (bs "invstrus.com") (bs "91827364")) (Some (mkInvTranList (go_date (2017) (1) (1) (0) (0) (0) (0) (0) (bs "GMT")) (go_date (2017) (3) (31) (0) (0) (0) (0) (0) (bs "GMT")) [(InvTransaction_BuyStock (mkBuyStock (mkInvBuy (mkInvTran (bs "729483191") [] (go_date (2017) (2) (3) (0) (0) (0) (0) (0) (bs "GMT")) (Some (go_date (2017) (2) (7) (0) (0) (0) (0) (0) (bs "GMT"))) [] []) (mkSecurityID (bs "78462F103") (bs "CUSIP")) (100 # 1)%Q (229 # 1)%Q (0 # 1)%Q (9 # 1)%Q (0 # 1)%Q (0 # 1)%Q (0 # 1)%Q (-22909 # 1)%Q (mkCurrency (0 # 1)%Q (bs "XXX")) (mkCurrency (0 # 1)%Q (bs "XXX")) 1%N 1%N [] (0 # 1)%Q (0 # 1)%Q 0%N None false) 1%N))] [(mkInvBankTransaction [(mkTransaction 1%N (go_date (2017) (1) (20) (0) (0) (0) (0) (0) (bs "GMT")) (Some (go_date (2017) (1) (18) (0) (0) (0) (0) (0) (bs "GMT"))) (Some (go_date (2017) (1) (23) (0) (0) (0) (0) (0) (bs "GMT"))) (22000 # 1)%Q (bs "993838") [] 0%N [] [] [] (0)%Z [] (bs "DEPOSIT") None [] None None (bs "CHECK 19980") [] None None 0%N)] 1%N)])) [(Position_StockPosition (mkStockPosition (mkInvPosition (mkSecurityID (bs "78462F103") (bs "CUSIP")) 1%N 1%N (200 # 1)%Q (11787 # 50)%Q (47148 # 1)%Q (0 # 1)%Q (go_date (2017) (3) (31) (16) (0) (0) (0) (0) (bs "GMT")) None (bs "Price as of previous close") 0%N) (0 # 1)%Q (0 # 1)%Q false)); (Position_OptPosition (mkOptPosition (mkInvPosition (mkSecurityID (bs "129887339") (bs "CUSIP")) 1%N 1%N (1 # 1)%Q (3 # 1)%Q (300 # 1)%Q (0 # 1)%Q (go_date (2017) (3) (31) (16) (0) (0) (0) (0) (bs "GMT")) None [] 0%N) 0%N))] (Some (mkInvBalance (1673 # 100)%Q (-4096 # 5)%Q (0 # 1)%Q (0 # 1)%Q [(mkBalance (bs "Sweep Int Rate") (bs "Current interest rate for sweep account balances") 2%N (1 # 4)%Q (Some (go_date (2017) (4) (1) (0) (0) (0) (0) (0) (bs "GMT"))) None)])) [(OpenOrder_OOBuyMF (mkOOBuyMF (mkOO (bs "76464632") [] (mkSecurityID (bs "922908645") (bs "CUSIP")) (go_date (2017) (3) (10) (12) (44) (45) (0) (0) (bs "GMT")) (10 # 1)%Q 1%N 2%N 3%N (0 # 1)%Q (337 # 2)%Q (0 # 1)%Q [] None 0%N) 1%N 1%N)); (OpenOrder_OOBuyStock (mkOOBuyStock (mkOO (bs "999387423") [] (mkSecurityID (bs "899422348") (bs "CUSIP")) (go_date (2017) (3) (24) (3) (19) (0) (0) (0) (bs "GMT")) (25 # 1)%Q 1%N 2%N 1%N (0 # 1)%Q (79 # 4)%Q (0 # 1)%Q [] None 0%N) 1%N))] [] None None)] [] [] [] [] [MsgSecurityList (mkSecurityList [(Security_StockInfo (mkStockInfo (mkSecInfo (mkSecurityID (bs "78462F103") (bs "CUSIP")) (bs "S&P 500 ETF") (bs "SPY") (bs "99184") [] (0 # 1)%Q None None []) 0%N (48 # 25)%Q None 7%N [])); (Security_OptInfo (mkOptInfo (mkSecInfo (mkSecurityID (bs "129887339") (bs "CUSIP")) (bs "John's Fertilizer Puts") (bs "FERTP") (bs "882919") [] (0 # 1)%Q None None []) 1%N (79 # 1)%Q (go_date (2017) (9) (1) (0) (0) (0) (0) (0) (bs "GMT")) (100)%Z (Some (mkSecurityID (bs "983322180") (bs "CUSIP"))) 3%N [])); (Security_StockInfo (mkStockInfo (mkSecInfo (mkSecurityID (bs "899422348") (bs "CUSIP")) (bs "Whatchamacallit, Inc.") (bs "WHAT") (bs "883897") [] (0 # 1)%Q None None []) 0%N (17 # 1)%Q None 4%N [])); (Security_MFInfo (mkMFInfo (mkSecInfo (mkSecurityID (bs "922908645") (bs "CUSIP")) (bs "Mid-Cap Index Fund Admiral Shares") (bs "VIMAX") [] [] (0 # 1)%Q None None []) 0%N (0 # 1)%Q None [] [])); (Security_DebtInfo (mkDebtInfo (mkSecInfo (mkSecurityID (bs "99182828") (bs "CUSIP")) (bs "Someone's Class B Debt") [] [] [] (0 # 1)%Q None None []) (10029 # 100)%Q 1%N 0%N (0 # 1)%Q (Some (go_date (2017) (9) (1) (0) (0) (0) (0) (0) (bs "GMT"))) 2%N (0 # 1)%Q (0 # 1)%Q None 0%N (0 # 1)%Q None 0%N [])); (Security_OtherInfo (mkOtherInfo (mkSecInfo (mkSecurityID (bs "88181818") (bs "CUSIP")) (bs "Foo Bar") [] [] [] (0 # 1)%Q None None []) (bs "Don't know what this is") 0%N []))])] [] [] [] []).
Example TestUnmarshalInvStatementResponse : parse_response sample_env TestUnmarshalInvStatementResponse_input = (Some TestUnmarshalInvStatementResponse_expected, None).
Proof. vm_compute. reflexivity. Qed.
Example TestUnmarshalInvStatementResponse_round_trip : round_trips TestUnmarshalInvStatementResponse_expected.
Proof. vm_compute. reflexivity. Qed.

(** invstmt_test.go, TestUnmarshalInvStatementResponse102. *)
Definition TestUnmarshalInvStatementResponse102_input : str := (doc [(bs "OFXHEADER: 100");
  (bs "DATA: OFXSGML");
  (bs "VERSION: 102");
  (bs "SECURITY: NONE");
  (bs "ENCODING: USASCII");
  (bs "CHARSET: 1252");
  (bs "COMPRESSION: NONE");
  (bs "OLDFILEUID: NONE");
  (bs "NEWFILEUID: NONE");
  [];
  (bs "<OFX>");
  (bs " <SIGNONMSGSRSV1>");
  (bs "  <SONRS>");
  (bs "   <STATUS>");
  (bs "    <CODE>0");
  (bs "    <SEVERITY>INFO");
  (bs "   </STATUS>");
  (bs "   <DTSERVER>20170403120000");
  (bs "   <LANGUAGE>ENG");
  (bs "   <FI>");
  (bs "    <ORG>VV");
  (bs "    <FID>1000");
  (bs "   </FI>");
  (bs "   <INTU.BID>1000");
  (bs "  </SONRS>");
  (bs " </SIGNONMSGSRSV1>");
  (bs " <INVSTMTMSGSRSV1>");
  (bs "  <INVSTMTTRNRS>");
  (bs "   <TRNUID>1283719872");
  (bs "   <STATUS>");
  (bs "    <CODE>0");
  (bs "    <SEVERITY>INFO");
  (bs "   </STATUS>");
  (bs "   <INVSTMTRS>");
  (bs "    <DTASOF>20170403120000");
  (bs "    <CURDEF>USD");
  (bs "    <INVACCTFROM>");
  (bs "     <BROKERID>www.exampletrader.com");
  (bs "     <ACCTID>12341234");
  (bs "    </INVACCTFROM>");
  (bs "    <INVTRANLIST>");
  (bs "     <DTSTART>20161206120000");
  (bs "     <DTEND>20170403120000");
  (bs "     <SELLOPT>");
  (bs "      <INVSELL>");
  (bs "       <INVTRAN>");
  (bs "        <FITID>12341234-20161207-1");
  (bs "        <DTTRADE>20161207120000");
  (bs "        <DTSETTLE>20161208120000");
  (bs "       </INVTRAN>");
  (bs "       <SECID>");
  (bs "        <UNIQUEID>SPY161216C00226000");
  (bs "        <UNIQUEIDTYPE>CUSIP");
  (bs "       </SECID>");
  (bs "       <UNITS>-1.0000");
  (bs "       <UNITPRICE>0.3500");
  (bs "       <COMMISSION>8.8500");
  (bs "       <FEES>0.2600");
  (bs "       <TOTAL>200.8900");
  (bs "       <SUBACCTSEC>CASH");
  (bs "       <SUBACCTFUND>CASH");
  (bs "      </INVSELL>");
  (bs "      <OPTSELLTYPE>SELLTOOPEN");
  (bs "      <SHPERCTRCT>100");
  (bs "     </SELLOPT>");
  (bs "     <CLOSUREOPT>");
  (bs "      <INVTRAN>");
  (bs "       <FITID>12341234-20161215-1");
  (bs "       <DTTRADE>20161215120000");
  (bs "       <DTSETTLE>20161220120000");
  (bs "      </INVTRAN>");
  (bs "      <SECID>");
  (bs "       <UNIQUEID>78462F10");
  (bs "       <UNIQUEIDTYPE>CUSIP");
  (bs "      </SECID>");
  (bs "      <OPTACTION>ASSIGN");
  (bs "      <UNITS>-100.0000");
  (bs "      <SHPERCTRCT>100");
  (bs "      <SUBACCTSEC>CASH");
  (bs "     </CLOSUREOPT>");
  (bs "     <CLOSUREOPT>");
  (bs "      <INVTRAN>");
  (bs "       <FITID>12341234-20161215-2");
  (bs "       <DTTRADE>20161215120000");
  (bs "       <DTSETTLE>20161215120000");
  (bs "      </INVTRAN>");
  (bs "      <SECID>");
  (bs "       <UNIQUEID>SPY161216C00226000");
  (bs "       <UNIQUEIDTYPE>CUSIP");
  (bs "      </SECID>");
  (bs "      <OPTACTION>ASSIGN");
  (bs "      <UNITS>1.0000");
  (bs "      <SHPERCTRCT>100");
  (bs "      <SUBACCTSEC>CASH");
  (bs "     </CLOSUREOPT>");
  (bs "    </INVTRANLIST>");
  (bs "    <INVPOSLIST>");
  (bs "     <POSSTOCK>");
  (bs "      <INVPOS>");
  (bs "       <SECID>");
  (bs "        <UNIQUEID>04956010");
  (bs "        <UNIQUEIDTYPE>CUSIP");
  (bs "       </SECID>");
  (bs "       <HELDINACCT>CASH");
  (bs "       <POSTYPE>LONG");
  (bs "       <UNITS>100");
  (bs "       <UNITPRICE>79.0000");
  (bs "       <MKTVAL>79000");
  (bs "       <DTPRICEASOF>20170403120000");
  (bs "      </INVPOS>");
  (bs "     </POSSTOCK>");
  (bs "     <POSSTOCK>");
  (bs "      <INVPOS>");
  (bs "       <SECID>");
  (bs "        <UNIQUEID>36960410");
  (bs "        <UNIQUEIDTYPE>CUSIP");
  (bs "       </SECID>");
  (bs "       <HELDINACCT>CASH");
  (bs "       <POSTYPE>LONG");
  (bs "       <UNITS>100.00");
  (bs "       <UNITPRICE>29.8700");
  (bs "       <MKTVAL>2987.00");
  (bs "       <DTPRICEASOF>20170403120000");
  (bs "      </INVPOS>");
  (bs "     </POSSTOCK>");
  (bs "    </INVPOSLIST>");
  (bs "    <INVBAL>");
  (bs "     <AVAILCASH>0.0");
  (bs "     <MARGINBALANCE>-0.00");
  (bs "     <SHORTBALANCE>0.00");
  (bs "    </INVBAL>");
  (bs "   </INVSTMTRS>");
  (bs "  </INVSTMTTRNRS>");
  (bs " </INVSTMTMSGSRSV1>");
  (bs " <SECLISTMSGSRSV1>");
  (bs "  <SECLIST>");
  (bs "   <STOCKINFO>");
  (bs "    <SECINFO>");
  (bs "     <SECID>");
  (bs "      <UNIQUEID>78462F10");
  (bs "      <UNIQUEIDTYPE>CUSIP");
  (bs "     </SECID>");
  (bs "     <SECNAME>SPDR S&amp;P 500 ETF TRUST");
  (bs "     <TICKER>SPY");
  (bs "    </SECINFO>");
  (bs "   </STOCKINFO>");
  (bs "   <OPTINFO>");
  (bs "    <SECINFO>");
  (bs "     <SECID>");
  (bs "      <UNIQUEID>SPY161216C00226000");
  (bs "      <UNIQUEIDTYPE>CUSIP");
  (bs "     </SECID>");
  (bs "     <SECNAME>SPY Dec 16 2016 226.00 Call");
  (bs "     <TICKER>SPY   161216C00226000");
  (bs "    </SECINFO>");
  (bs "    <OPTTYPE>CALL");
  (bs "    <STRIKEPRICE>226.00");
  (bs "    <DTEXPIRE>20161216120000");
  (bs "    <SHPERCTRCT>100");
  (bs "   </OPTINFO>");
  (bs "  </SECLIST>");
  (bs " </SECLISTMSGSRSV1>");
  (bs "</OFX>")]).
Definition TestUnmarshalInvStatementResponse102_expected : Response := mkResponse 1%N (mkSignonResponse (mkStatus (0)%Z (bs "INFO") []) (go_date (2017) (4) (3) (12) (0) (0) (0) (0) (bs "GMT")) [] None (bs "ENG") None None (bs "VV") (bs "1000") [] []) (mkSlots [] [] [] [] [MsgInvStatementResponse (mkInvStatementResponse (bs "1283719872") (mkStatus (0)%Z (bs "INFO") []) [] (go_date (2017) (4) (3) (12) (0) (0) (0) (0) (bs "GMT")) (bs "USD") (mkInvAcct (bs "www.exampletrader.com") (bs "12341234")) (Some (mkInvTranList (go_date (2016) (12) (6) (12) (0) (0) (0) (0) (bs "GMT")) (go_date (2017) (4) (3) (12) (0) (0) (0) (0) (bs "GMT")) [(InvTransaction_SellOpt (mkSellOpt (mkInvSell (mkInvTran (bs "12341234-20161207-1") [] (go_date (2016) (12) (7) (12) (0) (0) (0) (0) (bs "GMT")) (Some (go_date (2016) (12) (8) (12) (0) (0) (0) (0) (bs "GMT"))) [] []) (mkSecurityID (bs "SPY161216C00226000") (bs "CUSIP")) (-1 # 1)%Q (7 # 20)%Q (0 # 1)%Q (177 # 20)%Q (0 # 1)%Q (13 # 50)%Q (0 # 1)%Q (0 # 1)%Q false (20089 # 100)%Q (0 # 1)%Q (mkCurrency (0 # 1)%Q (bs "XXX")) (mkCurrency (0 # 1)%Q (bs "XXX")) 1%N 1%N [] (0 # 1)%Q (0 # 1)%Q 0%N) 2%N (100)%Z [] 0%N 0%N)); (InvTransaction_ClosureOpt (mkClosureOpt (mkInvTran (bs "12341234-20161215-1") [] (go_date (2016) (12) (15) (12) (0) (0) (0) (0) (bs "GMT")) (Some (go_date (2016) (12) (20) (12) (0) (0) (0) (0) (bs "GMT"))) [] []) (mkSecurityID (bs "78462F10") (bs "CUSIP")) 2%N (-100 # 1)%Q (100)%Z 1%N [] (0 # 1)%Q)); (InvTransaction_ClosureOpt (mkClosureOpt (mkInvTran (bs "12341234-20161215-2") [] (go_date (2016) (12) (15) (12) (0) (0) (0) (0) (bs "GMT")) (Some (go_date (2016) (12) (15) (12) (0) (0) (0) (0) (bs "GMT"))) [] []) (mkSecurityID (bs "SPY161216C00226000") (bs "CUSIP")) 2%N (1 # 1)%Q (100)%Z 1%N [] (0 # 1)%Q))] [])) [(Position_StockPosition (mkStockPosition (mkInvPosition (mkSecurityID (bs "04956010") (bs "CUSIP")) 1%N 1%N (100 # 1)%Q (79 # 1)%Q (79000 # 1)%Q (0 # 1)%Q (go_date (2017) (4) (3) (12) (0) (0) (0) (0) (bs "GMT")) None [] 0%N) (0 # 1)%Q (0 # 1)%Q false)); (Position_StockPosition (mkStockPosition (mkInvPosition (mkSecurityID (bs "36960410") (bs "CUSIP")) 1%N 1%N (100 # 1)%Q (2987 # 100)%Q (2987 # 1)%Q (0 # 1)%Q (go_date (2017) (4) (3) (12) (0) (0) (0) (0) (bs "GMT")) None [] 0%N) (0 # 1)%Q (0 # 1)%Q false))] (Some (mkInvBalance (0 # 1)%Q (0 # 1)%Q (0 # 1)%Q (0 # 1)%Q [])) [] [] None None)] [] [] [] [] [MsgSecurityList (mkSecurityList [(Security_StockInfo (mkStockInfo (mkSecInfo (mkSecurityID (bs "78462F10") (bs "CUSIP")) (bs "SPDR S&P 500 ETF TRUST") (bs "SPY") [] [] (0 # 1)%Q None None []) 0%N (0 # 1)%Q None 0%N [])); (Security_OptInfo (mkOptInfo (mkSecInfo (mkSecurityID (bs "SPY161216C00226000") (bs "CUSIP")) (bs "SPY Dec 16 2016 226.00 Call") (bs "SPY   161216C00226000") [] [] (0 # 1)%Q None None []) 2%N (226 # 1)%Q (go_date (2016) (12) (16) (12) (0) (0) (0) (0) (bs "GMT")) (100)%Z None 0%N []))])] [] [] [] []).
Example TestUnmarshalInvStatementResponse102 : parse_response sample_env TestUnmarshalInvStatementResponse102_input = (Some TestUnmarshalInvStatementResponse102_expected, None).
Proof. vm_compute. reflexivity. Qed.
Example TestUnmarshalInvStatementResponse102_round_trip : round_trips TestUnmarshalInvStatementResponse102_expected.
Proof. vm_compute. reflexivity. Qed.

(** invstmt_test.go, TestUnmarshalInvTranList. *)
Definition TestUnmarshalInvTranList_input : str := (doc [(bs "<INVTRANLIST>");
  (bs "	<DTSTART>20170101000000</DTSTART>");
  (bs "	<DTEND>20170331000000</DTEND>");
  (bs "	<BUYDEBT>");
  (bs "		<INVBUY>");
  (bs "			<INVTRAN>");
  (bs "				<FITID>81818</FITID>");
  (bs "				<DTTRADE>20170203</DTTRADE>");
  (bs "				<DTSETTLE>20170207</DTSETTLE>");
  (bs "			</INVTRAN>");
  (bs "			<SECID>");
  (bs "				<UNIQUEID>78462F103</UNIQUEID>");
  (bs "				<UNIQUEIDTYPE>CUSIP</UNIQUEIDTYPE>");
  (bs "			</SECID>");
  (bs "			<UNITS>100</UNITS>");
  (bs "			<UNITPRICE>229.00</UNITPRICE>");
  (bs "			<COMMISSION>9.00</COMMISSION>");
  (bs "			<FEES>.26</FEES>");
  (bs "			<TOTAL>-22090.26</TOTAL>");
  (bs "			<SUBACCTSEC>CASH</SUBACCTSEC>");
  (bs "			<SUBACCTFUND>CASH</SUBACCTFUND>");
  (bs "		</INVBUY>");
  (bs "		<ACCRDINT>101.2</ACCRDINT>");
  (bs "	</BUYDEBT>");
  (bs "	<BUYOPT>");
  (bs "		<INVBUY>");
  (bs "			<INVTRAN>");
  (bs "				<FITID>81818</FITID>");
  (bs "				<DTTRADE>20170203</DTTRADE>");
  (bs "				<MEMO>Something to make a memo about</MEMO>");
  (bs "			</INVTRAN>");
  (bs "			<SECID>");
  (bs "				<UNIQUEID>78462F103</UNIQUEID>");
  (bs "				<UNIQUEIDTYPE>CUSIP</UNIQUEIDTYPE>");
  (bs "			</SECID>");
  (bs "			<UNITS>100</UNITS>");
  (bs "			<UNITPRICE>229.00</UNITPRICE>");
  (bs "			<TOTAL>-22090.26</TOTAL>");
  (bs "			<SUBACCTSEC>CASH</SUBACCTSEC>");
  (bs "			<SUBACCTFUND>CASH</SUBACCTFUND>");
  (bs "		</INVBUY>");
  (bs "		<OPTBUYTYPE>BUYTOOPEN</OPTBUYTYPE>");
  (bs "		<SHPERCTRCT>100</SHPERCTRCT>");
  (bs "	</BUYOPT>");
  (bs "	<INVEXPENSE>");
  (bs "		<INVTRAN>");
  (bs "			<FITID>129837-1111</FITID>");
  (bs "			<DTTRADE>20170203</DTTRADE>");
  (bs "		</INVTRAN>");
  (bs "		<SECID>");
  (bs "			<UNIQUEID>78462F103</UNIQUEID>");
  (bs "			<UNIQUEIDTYPE>CUSIP</UNIQUEIDTYPE>");
  (bs "		</SECID>");
  (bs "		<TOTAL>0.26</TOTAL>");
  (bs "		<SUBACCTSEC>CASH</SUBACCTSEC>");
  (bs "		<SUBACCTFUND>CASH</SUBACCTFUND>");
  (bs "	</INVEXPENSE>");
  (bs "	<JRNLSEC>");
  (bs "		<INVTRAN>");
  (bs "			<FITID>129837-1112</FITID>");
  (bs "			<DTTRADE>20170203</DTTRADE>");
  (bs "		</INVTRAN>");
  (bs "		<SECID>");
  (bs "			<UNIQUEID>78462F103</UNIQUEID>");
  (bs "			<UNIQUEIDTYPE>CUSIP</UNIQUEIDTYPE>");
  (bs "		</SECID>");
  (bs "		<UNITS>2300</UNITS>");
  (bs "		<SUBACCTTO>CASH</SUBACCTTO>");
  (bs "		<SUBACCTFROM>CASH</SUBACCTFROM>");
  (bs "	</JRNLSEC>");
  (bs "	<JRNLFUND>");
  (bs "		<INVTRAN>");
  (bs "			<FITID>129837-1112</FITID>");
  (bs "			<DTTRADE>20170203</DTTRADE>");
  (bs "		</INVTRAN>");
  (bs "		<TOTAL>2300</TOTAL>");
  (bs "		<SUBACCTTO>CASH</SUBACCTTO>");
  (bs "		<SUBACCTFROM>CASH</SUBACCTFROM>");
  (bs "	</JRNLFUND>");
  (bs "	<BUYOTHER>");
  (bs "		<INVBUY>");
  (bs "			<INVTRAN>");
  (bs "				<FITID>81818</FITID>");
  (bs "				<DTTRADE>20170203</DTTRADE>");
  (bs "			</INVTRAN>");
  (bs "			<SECID>");
  (bs "				<UNIQUEID>78462F103</UNIQUEID>");
  (bs "				<UNIQUEIDTYPE>CUSIP</UNIQUEIDTYPE>");
  (bs "			</SECID>");
  (bs "			<UNITS>100</UNITS>");
  (bs "			<UNITPRICE>229.00</UNITPRICE>");
  (bs "			<TOTAL>-22090.26</TOTAL>");
  (bs "			<SUBACCTSEC>CASH</SUBACCTSEC>");
  (bs "			<SUBACCTFUND>CASH</SUBACCTFUND>");
  (bs "		</INVBUY>");
  (bs "	</BUYOTHER>");
  (bs "	<MARGININTEREST>");
  (bs "		<INVTRAN>");
  (bs "			<FITID>129837-1112</FITID>");
  (bs "			<DTTRADE>20170203</DTTRADE>");
  (bs "		</INVTRAN>");
  (bs "		<TOTAL>2300</TOTAL>");
  (bs "		<SUBACCTFUND>CASH</SUBACCTFUND>");
  (bs "	</MARGININTEREST>");
  (bs "	<SELLDEBT>");
  (bs "		<INVSELL>");
  (bs "			<INVTRAN>");
  (bs "				<FITID>129837-1111</FITID>");
  (bs "				<DTTRADE>20170203</DTTRADE>");
  (bs "			</INVTRAN>");
  (bs "			<SECID>");
  (bs "				<UNIQUEID>78462F103</UNIQUEID>");
  (bs "				<UNIQUEIDTYPE>CUSIP</UNIQUEIDTYPE>");
  (bs "			</SECID>");
  (bs "			<UNITS>100</UNITS>");
  (bs "			<UNITPRICE>229.00</UNITPRICE>");
  (bs "			<TOTAL>-22090.26</TOTAL>");
  (bs "			<SUBACCTSEC>CASH</SUBACCTSEC>");
  (bs "			<SUBACCTFUND>CASH</SUBACCTFUND>");
  (bs "		</INVSELL>");
  (bs "		<SELLREASON>SELL</SELLREASON>");
  (bs "	</SELLDEBT>");
  (bs "	<RETOFCAP>");
  (bs "		<INVTRAN>");
  (bs "			<FITID>129837-1111</FITID>");
  (bs "			<DTTRADE>20170203</DTTRADE>");
  (bs "		</INVTRAN>");
  (bs "		<SECID>");
  (bs "			<UNIQUEID>78462F103</UNIQUEID>");
  (bs "			<UNIQUEIDTYPE>CUSIP</UNIQUEIDTYPE>");
  (bs "		</SECID>");
  (bs "		<TOTAL>2300.00</TOTAL>");
  (bs "		<SUBACCTSEC>CASH</SUBACCTSEC>");
  (bs "		<SUBACCTFUND>CASH</SUBACCTFUND>");
  (bs "	</RETOFCAP>");
  (bs "	<SPLIT>");
  (bs "		<INVTRAN>");
  (bs "			<FITID>129837-1111</FITID>");
  (bs "			<DTTRADE>20170203</DTTRADE>");
  (bs "		</INVTRAN>");
  (bs "		<SECID>");
  (bs "			<UNIQUEID>78462F103</UNIQUEID>");
  (bs "			<UNIQUEIDTYPE>CUSIP</UNIQUEIDTYPE>");
  (bs "		</SECID>");
  (bs "		<SUBACCTSEC>CASH</SUBACCTSEC>");
  (bs "		<OLDUNITS>100</OLDUNITS>");
  (bs "		<NEWUNITS>200</NEWUNITS>");
  (bs "		<NUMERATOR>2</NUMERATOR>");
  (bs "		<DENOMINATOR>1</DENOMINATOR>");
  (bs "	</SPLIT>");
  (bs "	<SELLOTHER>");
  (bs "		<INVSELL>");
  (bs "			<INVTRAN>");
  (bs "				<FITID>129837-1111</FITID>");
  (bs "				<DTTRADE>20170203</DTTRADE>");
  (bs "			</INVTRAN>");
  (bs "			<SECID>");
  (bs "				<UNIQUEID>78462F103</UNIQUEID>");
  (bs "				<UNIQUEIDTYPE>CUSIP</UNIQUEIDTYPE>");
  (bs "			</SECID>");
  (bs "			<UNITS>100</UNITS>");
  (bs "			<UNITPRICE>229.00</UNITPRICE>");
  (bs "			<TOTAL>-22090.26</TOTAL>");
  (bs "			<SUBACCTSEC>CASH</SUBACCTSEC>");
  (bs "			<SUBACCTFUND>CASH</SUBACCTFUND>");
  (bs "		</INVSELL>");
  (bs "	</SELLOTHER>");
  (bs "</INVTRANLIST>")]).
Definition TestUnmarshalInvTranList_expected : InvTranList := (mkInvTranList (go_date (2017) (1) (1) (0) (0) (0) (0) (0) (bs "GMT")) (go_date (2017) (3) (31) (0) (0) (0) (0) (0) (bs "GMT")) [(InvTransaction_BuyDebt (mkBuyDebt (mkInvBuy (mkInvTran (bs "81818") [] (go_date (2017) (2) (3) (0) (0) (0) (0) (0) (bs "GMT")) (Some (go_date (2017) (2) (7) (0) (0) (0) (0) (0) (bs "GMT"))) [] []) (mkSecurityID (bs "78462F103") (bs "CUSIP")) (100 # 1)%Q (229 # 1)%Q (0 # 1)%Q (9 # 1)%Q (0 # 1)%Q (13 # 50)%Q (0 # 1)%Q (-1104513 # 50)%Q (mkCurrency (0 # 1)%Q (bs "XXX")) (mkCurrency (0 # 1)%Q (bs "XXX")) 1%N 1%N [] (0 # 1)%Q (0 # 1)%Q 0%N None false) (506 # 5)%Q)); (InvTransaction_BuyOpt (mkBuyOpt (mkInvBuy (mkInvTran (bs "81818") [] (go_date (2017) (2) (3) (0) (0) (0) (0) (0) (bs "GMT")) None [] (bs "Something to make a memo about")) (mkSecurityID (bs "78462F103") (bs "CUSIP")) (100 # 1)%Q (229 # 1)%Q (0 # 1)%Q (0 # 1)%Q (0 # 1)%Q (0 # 1)%Q (0 # 1)%Q (-1104513 # 50)%Q (mkCurrency (0 # 1)%Q (bs "XXX")) (mkCurrency (0 # 1)%Q (bs "XXX")) 1%N 1%N [] (0 # 1)%Q (0 # 1)%Q 0%N None false) 1%N (100)%Z)); (InvTransaction_InvExpense (mkInvExpense (mkInvTran (bs "129837-1111") [] (go_date (2017) (2) (3) (0) (0) (0) (0) (0) (bs "GMT")) None [] []) (mkSecurityID (bs "78462F103") (bs "CUSIP")) (13 # 50)%Q 1%N 1%N (mkCurrency (0 # 1)%Q (bs "XXX")) (mkCurrency (0 # 1)%Q (bs "XXX")) 0%N)); (InvTransaction_JrnlSec (mkJrnlSec (mkInvTran (bs "129837-1112") [] (go_date (2017) (2) (3) (0) (0) (0) (0) (0) (bs "GMT")) None [] []) (mkSecurityID (bs "78462F103") (bs "CUSIP")) 1%N 1%N (2300 # 1)%Q)); (InvTransaction_JrnlFund (mkJrnlFund (mkInvTran (bs "129837-1112") [] (go_date (2017) (2) (3) (0) (0) (0) (0) (0) (bs "GMT")) None [] []) (2300 # 1)%Q 1%N 1%N)); (InvTransaction_BuyOther (mkBuyOther (mkInvBuy (mkInvTran (bs "81818") [] (go_date (2017) (2) (3) (0) (0) (0) (0) (0) (bs "GMT")) None [] []) (mkSecurityID (bs "78462F103") (bs "CUSIP")) (100 # 1)%Q (229 # 1)%Q (0 # 1)%Q (0 # 1)%Q (0 # 1)%Q (0 # 1)%Q (0 # 1)%Q (-1104513 # 50)%Q (mkCurrency (0 # 1)%Q (bs "XXX")) (mkCurrency (0 # 1)%Q (bs "XXX")) 1%N 1%N [] (0 # 1)%Q (0 # 1)%Q 0%N None false))); (InvTransaction_MarginInterest (mkMarginInterest (mkInvTran (bs "129837-1112") [] (go_date (2017) (2) (3) (0) (0) (0) (0) (0) (bs "GMT")) None [] []) (2300 # 1)%Q 1%N (mkCurrency (0 # 1)%Q (bs "XXX")) (mkCurrency (0 # 1)%Q (bs "XXX")))); (InvTransaction_SellDebt (mkSellDebt (mkInvSell (mkInvTran (bs "129837-1111") [] (go_date (2017) (2) (3) (0) (0) (0) (0) (0) (bs "GMT")) None [] []) (mkSecurityID (bs "78462F103") (bs "CUSIP")) (100 # 1)%Q (229 # 1)%Q (0 # 1)%Q (0 # 1)%Q (0 # 1)%Q (0 # 1)%Q (0 # 1)%Q (0 # 1)%Q false (-1104513 # 50)%Q (0 # 1)%Q (mkCurrency (0 # 1)%Q (bs "XXX")) (mkCurrency (0 # 1)%Q (bs "XXX")) 1%N 1%N [] (0 # 1)%Q (0 # 1)%Q 0%N) 2%N (0 # 1)%Q)); (InvTransaction_RetOfCap (mkRetOfCap (mkInvTran (bs "129837-1111") [] (go_date (2017) (2) (3) (0) (0) (0) (0) (0) (bs "GMT")) None [] []) (mkSecurityID (bs "78462F103") (bs "CUSIP")) (2300 # 1)%Q 1%N 1%N (mkCurrency (0 # 1)%Q (bs "XXX")) (mkCurrency (0 # 1)%Q (bs "XXX")) 0%N)); (InvTransaction_Split (mkSplit (mkInvTran (bs "129837-1111") [] (go_date (2017) (2) (3) (0) (0) (0) (0) (0) (bs "GMT")) None [] []) (mkSecurityID (bs "78462F103") (bs "CUSIP")) 1%N (100 # 1)%Q (200 # 1)%Q (2)%Z (1)%Z (mkCurrency (0 # 1)%Q (bs "XXX")) (mkCurrency (0 # 1)%Q (bs "XXX")) (0 # 1)%Q 0%N 0%N)); (InvTransaction_SellOther (mkSellOther (mkInvSell (mkInvTran (bs "129837-1111") [] (go_date (2017) (2) (3) (0) (0) (0) (0) (0) (bs "GMT")) None [] []) (mkSecurityID (bs "78462F103") (bs "CUSIP")) (100 # 1)%Q (229 # 1)%Q (0 # 1)%Q (0 # 1)%Q (0 # 1)%Q (0 # 1)%Q (0 # 1)%Q (0 # 1)%Q false (-1104513 # 50)%Q (0 # 1)%Q (mkCurrency (0 # 1)%Q (bs "XXX")) (mkCurrency (0 # 1)%Q (bs "XXX")) 1%N 1%N [] (0 # 1)%Q (0 # 1)%Q 0%N)))] []).
Example TestUnmarshalInvTranList : option_map InvTranList_of (xml_unmarshal InvTranList_ty TestUnmarshalInvTranList_input) = Some TestUnmarshalInvTranList_expected.
Proof. vm_compute. reflexivity. Qed.

(** invstmt_test.go, TestUnmarshalPositionList. *)
Definition TestUnmarshalPositionList_input : str := (doc [(bs "<INVPOSLIST>");
  (bs "	<POSOTHER>");
  (bs "		<INVPOS>");
  (bs "			<SECID>");
  (bs "				<UNIQUEID>78462F103</UNIQUEID>");
  (bs "				<UNIQUEIDTYPE>CUSIP</UNIQUEIDTYPE>");
  (bs "			</SECID>");
  (bs "			<HELDINACCT>CASH</HELDINACCT>");
  (bs "			<POSTYPE>LONG</POSTYPE>");
  (bs "			<UNITS>1</UNITS>");
  (bs "			<UNITPRICE>3</UNITPRICE>");
  (bs "			<MKTVAL>300</MKTVAL>");
  (bs "			<DTPRICEASOF>20170331160000</DTPRICEASOF>");
  (bs "		</INVPOS>");
  (bs "	</POSOTHER>");
  (bs "	<POSSTOCK>");
  (bs "		<INVPOS>");
  (bs "			<SECID>");
  (bs "				<UNIQUEID>78462F103</UNIQUEID>");
  (bs "				<UNIQUEIDTYPE>CUSIP</UNIQUEIDTYPE>");
  (bs "			</SECID>");
  (bs "			<HELDINACCT>CASH</HELDINACCT>");
  (bs "			<POSTYPE>SHORT</POSTYPE>");
  (bs "			<UNITS>200</UNITS>");
  (bs "			<UNITPRICE>235.74</UNITPRICE>");
  (bs "			<MKTVAL>47148.00</MKTVAL>");
  (bs "			<DTPRICEASOF>20170331160000</DTPRICEASOF>");
  (bs "			<MEMO>Price as of previous close</MEMO>");
  (bs "		</INVPOS>");
  (bs "		<REINVDIV>Y</REINVDIV>");
  (bs "	</POSSTOCK>");
  (bs "	<POSDEBT>");
  (bs "		<INVPOS>");
  (bs "			<SECID>");
  (bs "				<UNIQUEID>129887339</UNIQUEID>");
  (bs "				<UNIQUEIDTYPE>CUSIP</UNIQUEIDTYPE>");
  (bs "			</SECID>");
  (bs "			<HELDINACCT>CASH</HELDINACCT>");
  (bs "			<POSTYPE>LONG</POSTYPE>");
  (bs "			<UNITS>1</UNITS>");
  (bs "			<UNITPRICE>3</UNITPRICE>");
  (bs "			<MKTVAL>300</MKTVAL>");
  (bs "			<DTPRICEASOF>20170331160000</DTPRICEASOF>");
  (bs "		</INVPOS>");
  (bs "	</POSDEBT>");
  (bs "	<POSOPT>");
  (bs "		<INVPOS>");
  (bs "			<SECID>");
  (bs "				<UNIQUEID>129887339</UNIQUEID>");
  (bs "				<UNIQUEIDTYPE>CUSIP</UNIQUEIDTYPE>");
  (bs "			</SECID>");
  (bs "			<HELDINACCT>CASH</HELDINACCT>");
  (bs "			<POSTYPE>LONG</POSTYPE>");
  (bs "			<UNITS>1</UNITS>");
  (bs "			<UNITPRICE>3</UNITPRICE>");
  (bs "			<MKTVAL>300</MKTVAL>");
  (bs "			<DTPRICEASOF>20170331160000</DTPRICEASOF>");
  (bs "		</INVPOS>");
  (bs "	</POSOPT>");
  (bs "	<POSMF>");
  (bs "		<INVPOS>");
  (bs "			<SECID>");
  (bs "				<UNIQUEID>78462F103</UNIQUEID>");
  (bs "				<UNIQUEIDTYPE>CUSIP</UNIQUEIDTYPE>");
  (bs "			</SECID>");
  (bs "			<HELDINACCT>CASH</HELDINACCT>");
  (bs "			<POSTYPE>LONG</POSTYPE>");
  (bs "			<UNITS>200</UNITS>");
  (bs "			<UNITPRICE>235.74</UNITPRICE>");
  (bs "			<MKTVAL>47148.00</MKTVAL>");
  (bs "			<DTPRICEASOF>20170331160000</DTPRICEASOF>");
  (bs "			<MEMO>Price as of previous close</MEMO>");
  (bs "		</INVPOS>");
  (bs "		<REINVDIV>Y</REINVDIV>");
  (bs "		<REINVCG>N</REINVCG>");
  (bs "	</POSMF>");
  (bs "</INVPOSLIST>")]).
Definition TestUnmarshalPositionList_expected : list Position := [(Position_OtherPosition (mkOtherPosition (mkInvPosition (mkSecurityID (bs "78462F103") (bs "CUSIP")) 1%N 1%N (1 # 1)%Q (3 # 1)%Q (300 # 1)%Q (0 # 1)%Q (go_date (2017) (3) (31) (16) (0) (0) (0) (0) (bs "GMT")) None [] 0%N))); (Position_StockPosition (mkStockPosition (mkInvPosition (mkSecurityID (bs "78462F103") (bs "CUSIP")) 1%N 2%N (200 # 1)%Q (11787 # 50)%Q (47148 # 1)%Q (0 # 1)%Q (go_date (2017) (3) (31) (16) (0) (0) (0) (0) (bs "GMT")) None (bs "Price as of previous close") 0%N) (0 # 1)%Q (0 # 1)%Q true)); (Position_DebtPosition (mkDebtPosition (mkInvPosition (mkSecurityID (bs "129887339") (bs "CUSIP")) 1%N 1%N (1 # 1)%Q (3 # 1)%Q (300 # 1)%Q (0 # 1)%Q (go_date (2017) (3) (31) (16) (0) (0) (0) (0) (bs "GMT")) None [] 0%N))); (Position_OptPosition (mkOptPosition (mkInvPosition (mkSecurityID (bs "129887339") (bs "CUSIP")) 1%N 1%N (1 # 1)%Q (3 # 1)%Q (300 # 1)%Q (0 # 1)%Q (go_date (2017) (3) (31) (16) (0) (0) (0) (0) (bs "GMT")) None [] 0%N) 0%N)); (Position_MFPosition (mkMFPosition (mkInvPosition (mkSecurityID (bs "78462F103") (bs "CUSIP")) 1%N 1%N (200 # 1)%Q (11787 # 50)%Q (47148 # 1)%Q (0 # 1)%Q (go_date (2017) (3) (31) (16) (0) (0) (0) (0) (bs "GMT")) None (bs "Price as of previous close") 0%N) (0 # 1)%Q (0 # 1)%Q true false))].
Example TestUnmarshalPositionList : option_map (map Position_of) (xml_unmarshal (TAltList (bs "INVPOSLIST") Position_alts) TestUnmarshalPositionList_input) = Some TestUnmarshalPositionList_expected.
Proof. vm_compute. reflexivity. Qed.

(** invstmt_test.go, TestUnmarshalOOList. *)
Definition TestUnmarshalOOList_input : str := (doc [(bs "<INVOOLIST>");
  (bs "	<OOBUYDEBT>");
  (bs "		<OO>");
  (bs "			<FITID>76464632</FITID>");
  (bs "			<SECID>");
  (bs "				<UNIQUEID>922908645</UNIQUEID>");
  (bs "				<UNIQUEIDTYPE>CUSIP</UNIQUEIDTYPE>");
  (bs "			</SECID>");
  (bs "			<DTPLACED>20170310124445</DTPLACED>");
  (bs "			<UNITS>10</UNITS>");
  (bs "			<SUBACCT>CASH</SUBACCT>");
  (bs "			<DURATION>DAY</DURATION>");
  (bs "			<RESTRICTION>NONE</RESTRICTION>");
  (bs "		</OO>");
  (bs "		<AUCTION>Y</AUCTION>");
  (bs "	</OOBUYDEBT>");
  (bs "	<OOBUYMF>");
  (bs "		<OO>");
  (bs "			<FITID>76464632</FITID>");
  (bs "			<SECID>");
  (bs "				<UNIQUEID>922908645</UNIQUEID>");
  (bs "				<UNIQUEIDTYPE>CUSIP</UNIQUEIDTYPE>");
  (bs "			</SECID>");
  (bs "			<DTPLACED>20170310124445</DTPLACED>");
  (bs "			<UNITS>10</UNITS>");
  (bs "			<SUBACCT>CASH</SUBACCT>");
  (bs "			<DURATION>GOODTILCANCEL</DURATION>");
  (bs "			<RESTRICTION>NONE</RESTRICTION>");
  (bs "			<LIMITPRICE>168.50</LIMITPRICE>");
  (bs "		</OO>");
  (bs "		<BUYTYPE>BUY</BUYTYPE>");
  (bs "		<UNITTYPE>SHARES</UNITTYPE>");
  (bs "	</OOBUYMF>");
  (bs "	<OOBUYOPT>");
  (bs "		<OO>");
  (bs "			<FITID>999387423</FITID>");
  (bs "			<SECID>");
  (bs "				<UNIQUEID>899422348</UNIQUEID>");
  (bs "				<UNIQUEIDTYPE>CUSIP</UNIQUEIDTYPE>");
  (bs "			</SECID>");
  (bs "			<DTPLACED>20170324031900</DTPLACED>");
  (bs "			<UNITS>25</UNITS>");
  (bs "			<SUBACCT>CASH</SUBACCT>");
  (bs "			<DURATION>GOODTILCANCEL</DURATION>");
  (bs "			<RESTRICTION>ALLORNONE</RESTRICTION>");
  (bs "			<LIMITPRICE>19.75</LIMITPRICE>");
  (bs "		</OO>");
  (bs "		<OPTBUYTYPE>BUYTOCLOSE</OPTBUYTYPE>");
  (bs "	</OOBUYOPT>");
  (bs "	<OOBUYSTOCK>");
  (bs "		<OO>");
  (bs "			<FITID>999387423</FITID>");
  (bs "			<SECID>");
  (bs "				<UNIQUEID>899422348</UNIQUEID>");
  (bs "				<UNIQUEIDTYPE>CUSIP</UNIQUEIDTYPE>");
  (bs "			</SECID>");
  (bs "			<DTPLACED>20170324031900</DTPLACED>");
  (bs "			<UNITS>25</UNITS>");
  (bs "			<SUBACCT>CASH</SUBACCT>");
  (bs "			<DURATION>GOODTILCANCEL</DURATION>");
  (bs "			<RESTRICTION>ALLORNONE</RESTRICTION>");
  (bs "			<LIMITPRICE>19.75</LIMITPRICE>");
  (bs "		</OO>");
  (bs "		<BUYTYPE>BUY</BUYTYPE>");
  (bs "	</OOBUYSTOCK>");
  (bs "	<OOBUYOTHER>");
  (bs "		<OO>");
  (bs "			<FITID>999387423</FITID>");
  (bs "			<SECID>");
  (bs "				<UNIQUEID>899422348</UNIQUEID>");
  (bs "				<UNIQUEIDTYPE>CUSIP</UNIQUEIDTYPE>");
  (bs "			</SECID>");
  (bs "			<DTPLACED>20170324031900</DTPLACED>");
  (bs "			<UNITS>25</UNITS>");
  (bs "			<SUBACCT>CASH</SUBACCT>");
  (bs "			<DURATION>GOODTILCANCEL</DURATION>");
  (bs "			<RESTRICTION>ALLORNONE</RESTRICTION>");
  (bs "			<LIMITPRICE>19.75</LIMITPRICE>");
  (bs "		</OO>");
  (bs "		<UNITTYPE>CURRENCY</UNITTYPE>");
  (bs "	</OOBUYOTHER>");
  (bs "	<OOSELLDEBT>");
  (bs "		<OO>");
  (bs "			<FITID>999387423</FITID>");
  (bs "			<SECID>");
  (bs "				<UNIQUEID>899422348</UNIQUEID>");
  (bs "				<UNIQUEIDTYPE>CUSIP</UNIQUEIDTYPE>");
  (bs "			</SECID>");
  (bs "			<DTPLACED>20170324031900</DTPLACED>");
  (bs "			<UNITS>25</UNITS>");
  (bs "			<SUBACCT>CASH</SUBACCT>");
  (bs "			<DURATION>GOODTILCANCEL</DURATION>");
  (bs "			<RESTRICTION>ALLORNONE</RESTRICTION>");
  (bs "		</OO>");
  (bs "	</OOSELLDEBT>");
  (bs "	<OOSELLMF>");
  (bs "		<OO>");
  (bs "			<FITID>999387423</FITID>");
  (bs "			<SECID>");
  (bs "				<UNIQUEID>899422348</UNIQUEID>");
  (bs "				<UNIQUEIDTYPE>CUSIP</UNIQUEIDTYPE>");
  (bs "			</SECID>");
  (bs "			<DTPLACED>20170324031900</DTPLACED>");
  (bs "			<UNITS>25</UNITS>");
  (bs "			<SUBACCT>CASH</SUBACCT>");
  (bs "			<DURATION>GOODTILCANCEL</DURATION>");
  (bs "			<RESTRICTION>ALLORNONE</RESTRICTION>");
  (bs "		</OO>");
  (bs "		<SELLTYPE>SELLSHORT</SELLTYPE>");
  (bs "		<UNITTYPE>SHARES");
  (bs "		</UNITTYPE>");
  (bs "		<SELLALL>Y</SELLALL>");
  (bs "	</OOSELLMF>");
  (bs "	<OOSELLOPT>");
  (bs "		<OO>");
  (bs "			<FITID>999387423</FITID>");
  (bs "			<SECID>");
  (bs "				<UNIQUEID>899422348</UNIQUEID>");
  (bs "				<UNIQUEIDTYPE>CUSIP</UNIQUEIDTYPE>");
  (bs "			</SECID>");
  (bs "			<DTPLACED>20170324031900</DTPLACED>");
  (bs "			<UNITS>25</UNITS>");
  (bs "			<SUBACCT>CASH</SUBACCT>");
  (bs "			<DURATION>GOODTILCANCEL</DURATION>");
  (bs "			<RESTRICTION>ALLORNONE</RESTRICTION>");
  (bs "		</OO>");
  (bs "		<OPTSELLTYPE>SELLTOOPEN</OPTSELLTYPE>");
  (bs "	</OOSELLOPT>");
  (bs "	<OOSELLOTHER>");
  (bs "		<OO>");
  (bs "			<FITID>999387423</FITID>");
  (bs "			<SECID>");
  (bs "				<UNIQUEID>899422348</UNIQUEID>");
  (bs "				<UNIQUEIDTYPE>CUSIP</UNIQUEIDTYPE>");
  (bs "			</SECID>");
  (bs "			<DTPLACED>20170324031900</DTPLACED>");
  (bs "			<UNITS>25</UNITS>");
  (bs "			<SUBACCT>CASH</SUBACCT>");
  (bs "			<DURATION>GOODTILCANCEL</DURATION>");
  (bs "			<RESTRICTION>ALLORNONE</RESTRICTION>");
  (bs "		</OO>");
  (bs "		<UNITTYPE>SHARES</UNITTYPE>");
  (bs "	</OOSELLOTHER>");
  (bs "	<OOSELLSTOCK>");
  (bs "		<OO>");
  (bs "			<FITID>999387423</FITID>");
  (bs "			<SECID>");
  (bs "				<UNIQUEID>899422348</UNIQUEID>");
  (bs "				<UNIQUEIDTYPE>CUSIP</UNIQUEIDTYPE>");
  (bs "			</SECID>");
  (bs "			<DTPLACED>20170324031900</DTPLACED>");
  (bs "			<UNITS>25</UNITS>");
  (bs "			<SUBACCT>CASH</SUBACCT>");
  (bs "			<DURATION>GOODTILCANCEL</DURATION>");
  (bs "			<RESTRICTION>ALLORNONE</RESTRICTION>");
  (bs "		</OO>");
  (bs "		<SELLTYPE>SELL</SELLTYPE>");
  (bs "	</OOSELLSTOCK>");
  (bs "	<SWITCHMF>");
  (bs "		<OO>");
  (bs "			<FITID>999387423</FITID>");
  (bs "			<SECID>");
  (bs "				<UNIQUEID>899422348</UNIQUEID>");
  (bs "				<UNIQUEIDTYPE>CUSIP</UNIQUEIDTYPE>");
  (bs "			</SECID>");
  (bs "			<DTPLACED>20170324031900</DTPLACED>");
  (bs "			<UNITS>25</UNITS>");
  (bs "			<SUBACCT>CASH</SUBACCT>");
  (bs "			<DURATION>GOODTILCANCEL</DURATION>");
  (bs "			<RESTRICTION>ALLORNONE</RESTRICTION>");
  (bs "		</OO>");
  (bs "		<SECID>");
  (bs "			<UNIQUEID>899422389</UNIQUEID>");
  (bs "			<UNIQUEIDTYPE>CUSIP</UNIQUEIDTYPE>");
  (bs "		</SECID>");
  (bs "		<UNITTYPE>CURRENCY</UNITTYPE>");
  (bs "		<SWITCHALL>N</SWITCHALL>");
  (bs "	</SWITCHMF>");
  (bs "</INVOOLIST>")]).
Definition TestUnmarshalOOList_expected : list OpenOrder := [(OpenOrder_OOBuyDebt (mkOOBuyDebt (mkOO (bs "76464632") [] (mkSecurityID (bs "922908645") (bs "CUSIP")) (go_date (2017) (3) (10) (12) (44) (45) (0) (0) (bs "GMT")) (10 # 1)%Q 1%N 1%N 3%N (0 # 1)%Q (0 # 1)%Q (0 # 1)%Q [] None 0%N) true None)); (OpenOrder_OOBuyMF (mkOOBuyMF (mkOO (bs "76464632") [] (mkSecurityID (bs "922908645") (bs "CUSIP")) (go_date (2017) (3) (10) (12) (44) (45) (0) (0) (bs "GMT")) (10 # 1)%Q 1%N 2%N 3%N (0 # 1)%Q (337 # 2)%Q (0 # 1)%Q [] None 0%N) 1%N 1%N)); (OpenOrder_OOBuyOpt (mkOOBuyOpt (mkOO (bs "999387423") [] (mkSecurityID (bs "899422348") (bs "CUSIP")) (go_date (2017) (3) (24) (3) (19) (0) (0) (0) (bs "GMT")) (25 # 1)%Q 1%N 2%N 1%N (0 # 1)%Q (79 # 4)%Q (0 # 1)%Q [] None 0%N) 2%N)); (OpenOrder_OOBuyStock (mkOOBuyStock (mkOO (bs "999387423") [] (mkSecurityID (bs "899422348") (bs "CUSIP")) (go_date (2017) (3) (24) (3) (19) (0) (0) (0) (bs "GMT")) (25 # 1)%Q 1%N 2%N 1%N (0 # 1)%Q (79 # 4)%Q (0 # 1)%Q [] None 0%N) 1%N)); (OpenOrder_OOBuyOther (mkOOBuyOther (mkOO (bs "999387423") [] (mkSecurityID (bs "899422348") (bs "CUSIP")) (go_date (2017) (3) (24) (3) (19) (0) (0) (0) (bs "GMT")) (25 # 1)%Q 1%N 2%N 1%N (0 # 1)%Q (79 # 4)%Q (0 # 1)%Q [] None 0%N) 2%N)); (OpenOrder_OOSellDebt (mkOOSellDebt (mkOO (bs "999387423") [] (mkSecurityID (bs "899422348") (bs "CUSIP")) (go_date (2017) (3) (24) (3) (19) (0) (0) (0) (bs "GMT")) (25 # 1)%Q 1%N 2%N 1%N (0 # 1)%Q (0 # 1)%Q (0 # 1)%Q [] None 0%N))); (OpenOrder_OOSellMF (mkOOSellMF (mkOO (bs "999387423") [] (mkSecurityID (bs "899422348") (bs "CUSIP")) (go_date (2017) (3) (24) (3) (19) (0) (0) (0) (bs "GMT")) (25 # 1)%Q 1%N 2%N 1%N (0 # 1)%Q (0 # 1)%Q (0 # 1)%Q [] None 0%N) 2%N 1%N true)); (OpenOrder_OOSellOpt (mkOOSellOpt (mkOO (bs "999387423") [] (mkSecurityID (bs "899422348") (bs "CUSIP")) (go_date (2017) (3) (24) (3) (19) (0) (0) (0) (bs "GMT")) (25 # 1)%Q 1%N 2%N 1%N (0 # 1)%Q (0 # 1)%Q (0 # 1)%Q [] None 0%N) 2%N)); (OpenOrder_OOSellOther (mkOOSellOther (mkOO (bs "999387423") [] (mkSecurityID (bs "899422348") (bs "CUSIP")) (go_date (2017) (3) (24) (3) (19) (0) (0) (0) (bs "GMT")) (25 # 1)%Q 1%N 2%N 1%N (0 # 1)%Q (0 # 1)%Q (0 # 1)%Q [] None 0%N) 1%N)); (OpenOrder_OOSellStock (mkOOSellStock (mkOO (bs "999387423") [] (mkSecurityID (bs "899422348") (bs "CUSIP")) (go_date (2017) (3) (24) (3) (19) (0) (0) (0) (bs "GMT")) (25 # 1)%Q 1%N 2%N 1%N (0 # 1)%Q (0 # 1)%Q (0 # 1)%Q [] None 0%N) 1%N)); (OpenOrder_OOSwitchMF (mkOOSwitchMF (mkOO (bs "999387423") [] (mkSecurityID (bs "899422348") (bs "CUSIP")) (go_date (2017) (3) (24) (3) (19) (0) (0) (0) (bs "GMT")) (25 # 1)%Q 1%N 2%N 1%N (0 # 1)%Q (0 # 1)%Q (0 # 1)%Q [] None 0%N) (mkSecurityID (bs "899422389") (bs "CUSIP")) 2%N false))].
Example TestUnmarshalOOList : option_map (map OpenOrder_of) (xml_unmarshal (TAltList (bs "INVOOLIST") OpenOrder_alts) TestUnmarshalOOList_input) = Some TestUnmarshalOOList_expected.
Proof. vm_compute. reflexivity. Qed.

(** profile_test.go, TestMarshalProfileRequest. *)
Definition TestMarshalProfileRequest_client : client := Basic (mkBasicClient 8%N (bs "OFXGO") (bs "0001") false false [] None).
Definition TestMarshalProfileRequest_request : Request := set_client_fields (go_date (2016) (6) (14) (7) (34) (0) (0) (-18000) (bs "EST")) TestMarshalProfileRequest_client
  (mkRequest [] 0%N (mkSignonRequest zero_time (bs "anonymous00000000000000000000000") (bs "anonymous00000000000000000000000") [] false [] (bs "BNK") (bs "1987") [] [] []) (mkSlots [] [] [] [] [] [] [] [] [] [] [] [] [MsgProfileRequest (mkProfileRequest (bs "983373") [] [] [] (go_date (2016) (1) (1) (0) (0) (0) (0) (-18000) (bs "EST")))] []) false false).
Example TestMarshalProfileRequest : option_map (fun p => squeeze true (fst p)) (request_marshal TestMarshalProfileRequest_request) = Some (bs "<?xml version=""1.0"" encoding=""UTF-8"" standalone=""no""?><?OFX OFXHEADER=""200"" VERSION=""203"" SECURITY=""NONE"" OLDFILEUID=""NONE"" NEWFILEUID=""NONE""?><OFX><SIGNONMSGSRQV1><SONRQ><DTCLIENT>20160614073400.000[-5:EST]</DTCLIENT><USERID>anonymous00000000000000000000000</USERID><USERPASS>anonymous00000000000000000000000</USERPASS><LANGUAGE>ENG</LANGUAGE><FI><ORG>BNK</ORG><FID>1987</FID></FI><APPID>OFXGO</APPID><APPVER>0001</APPVER></SONRQ></SIGNONMSGSRQV1><PROFMSGSRQV1><PROFTRNRQ><TRNUID>983373</TRNUID><PROFRQ><CLIENTROUTING>NONE</CLIENTROUTING><DTPROFUP>20160101000000.000[-5:EST]</DTPROFUP></PROFRQ></PROFTRNRQ></PROFMSGSRQV1></OFX>").
Proof. vm_compute. reflexivity. Qed.

(** profile_test.go, TestUnmarshalProfileResponse102. *)
Definition TestUnmarshalProfileResponse102_input : str := (doc [(bs "OFXHEADER:100");
  (bs "DATA:OFXSGML");
  (bs "VERSION:102");
  (bs "SECURITY:NONE");
  (bs "ENCODING:USASCII");
  (bs "CHARSET:1252");
  (bs "COMPRESSION:NONE");
  (bs "OLDFILEUID:NONE");
  (bs "NEWFILEUID:NONE");
  [];
  (bs "<OFX>");
  (bs "<SIGNONMSGSRSV1>");
  (bs "<SONRS>");
  (bs "<STATUS>");
  (bs "<CODE>0");
  (bs "<SEVERITY>INFO");
  (bs "</STATUS>");
  (bs "<DTSERVER>20170403093458.000");
  (bs "<LANGUAGE>ENG");
  (bs "<DTPROFUP>20021119140000");
  (bs "</SONRS>");
  (bs "</SIGNONMSGSRSV1>");
  (bs "<PROFMSGSRSV1>");
  (bs "<PROFTRNRS>");
  (bs "<TRNUID>0f94ce83-13b7-7568-e4fc-c02c7b47e7ab");
  (bs "<STATUS>");
  (bs "<CODE>0");
  (bs "<SEVERITY>INFO");
  (bs "</STATUS>");
  (bs "<PROFRS>");
  (bs "<MSGSETLIST>");
  (bs "<SIGNONMSGSET>");
  (bs "<SIGNONMSGSETV1>");
  (bs "<MSGSETCORE>");
  (bs "<VER>1");
  (bs "<URL>https://ofx.example.com/cgi-ofx/exampleofx");
  (bs "<OFXSEC>NONE");
  (bs "<TRANSPSEC>Y");
  (bs "<SIGNONREALM>Example Trade");
  (bs "<LANGUAGE>ENG");
  (bs "<SYNCMODE>LITE");
  (bs "<RESPFILEER>N");
  (bs "<INTU.TIMEOUT>300");
  (bs "</MSGSETCORE>");
  (bs "</SIGNONMSGSETV1>");
  (bs "</SIGNONMSGSET>");
  (bs "<SIGNUPMSGSET>");
  (bs "<SIGNUPMSGSETV1>");
  (bs "<MSGSETCORE>");
  (bs "<VER>1");
  (bs "<URL>https://ofx.example.com/cgi-ofx/exampleofx");
  (bs "<OFXSEC>NONE");
  (bs "<TRANSPSEC>Y");
  (bs "<SIGNONREALM>Example Trade");
  (bs "<LANGUAGE>ENG");
  (bs "<SYNCMODE>LITE");
  (bs "<RESPFILEER>N");
  (bs "<INTU.TIMEOUT>300");
  (bs "</MSGSETCORE>");
  (bs "<CLIENTENROLL>");
  (bs "<ACCTREQUIRED>Y");
  (bs "</CLIENTENROLL>");
  (bs "<CHGUSERINFO>N");
  (bs "<AVAILACCTS>Y");
  (bs "<CLIENTACTREQ>Y");
  (bs "</SIGNUPMSGSETV1>");
  (bs "</SIGNUPMSGSET>");
  (bs "<INVSTMTMSGSET>");
  (bs "<INVSTMTMSGSETV1>");
  (bs "<MSGSETCORE>");
  (bs "<VER>1");
  (bs "<URL>https://ofx.example.com/cgi-ofx/exampleofx");
  (bs "<OFXSEC>NONE");
  (bs "<TRANSPSEC>Y");
  (bs "<SIGNONREALM>Example Trade");
  (bs "<LANGUAGE>ENG");
  (bs "<SYNCMODE>LITE");
  (bs "<RESPFILEER>N");
  (bs "<INTU.TIMEOUT>300");
  (bs "</MSGSETCORE>");
  (bs "<TRANDNLD>Y");
  (bs "<OODNLD>N");
  (bs "<POSDNLD>Y");
  (bs "<BALDNLD>Y");
  (bs "<CANEMAIL>N");
  (bs "</INVSTMTMSGSETV1>");
  (bs "</INVSTMTMSGSET>");
  (bs "<SECLISTMSGSET>");
  (bs "<SECLISTMSGSETV1>");
  (bs "<MSGSETCORE>");
  (bs "<VER>1");
  (bs "<URL>https://ofx.example.com/cgi-ofx/exampleofx");
  (bs "<OFXSEC>NONE");
  (bs "<TRANSPSEC>Y");
  (bs "<SIGNONREALM>Example Trade");
  (bs "<LANGUAGE>ENG");
  (bs "<SYNCMODE>LITE");
  (bs "<RESPFILEER>N");
  (bs "<INTU.TIMEOUT>300");
  (bs "</MSGSETCORE>");
  (bs "<SECLISTRQDNLD>Y");
  (bs "</SECLISTMSGSETV1>");
  (bs "</SECLISTMSGSET>");
  (bs "<PROFMSGSET>");
  (bs "<PROFMSGSETV1>");
  (bs "<MSGSETCORE>");
  (bs "<VER>1");
  (bs "<URL>https://ofx.example.com/cgi-ofx/exampleofx");
  (bs "<OFXSEC>NONE");
  (bs "<TRANSPSEC>Y");
  (bs "<SIGNONREALM>Example Trade");
  (bs "<LANGUAGE>ENG");
  (bs "<SYNCMODE>LITE");
  (bs "<RESPFILEER>N");
  (bs "<INTU.TIMEOUT>300");
  (bs "</MSGSETCORE>");
  (bs "</PROFMSGSETV1>");
  (bs "</PROFMSGSET>");
  (bs "</MSGSETLIST>");
  (bs "<SIGNONINFOLIST>");
  (bs "<SIGNONINFO>");
  (bs "<SIGNONREALM>Example Trade");
  (bs "<MIN>1");
  (bs "<MAX>32");
  (bs "<CHARTYPE>ALPHAORNUMERIC");
  (bs "<CASESEN>N");
  (bs "<SPECIAL>Y");
  (bs "<SPACES>N");
  (bs "<PINCH>N");
  (bs "<CHGPINFIRST>N");
  (bs "</SIGNONINFO>");
  (bs "</SIGNONINFOLIST>");
  (bs "<DTPROFUP>20021119140000");
  (bs "<FINAME>Example Trade Financial");
  (bs "<ADDR1>5555 Buhunkus Drive");
  (bs "<CITY>Someville");
  (bs "<STATE>NC");
  (bs "<POSTALCODE>28801");
  (bs "<COUNTRY>USA");
  (bs "<CSPHONE>1-800-234-5678");
  (bs "<TSPHONE>1-800-234-5678");
  (bs "<FAXPHONE>1-888-234-5678");
  (bs "<URL>http://www.example.com");
  (bs "<EMAIL>service@example.com");
  (bs "<INTU.BROKERID>example.com");
  (bs "</PROFRS>");
  (bs "</PROFTRNRS>");
  (bs "</PROFMSGSRSV1>");
  (bs "</OFX>")]).
Definition TestUnmarshalProfileResponse102_expected : Response := mkResponse 1%N (mkSignonResponse (mkStatus (0)%Z (bs "INFO") []) (go_date (2017) (4) (3) (9) (34) (58) (0) (0) (bs "GMT")) [] None (bs "ENG") (Some (go_date (2002) (11) (19) (14) (0) (0) (0) (0) (bs "GMT"))) None [] [] [] []) (mkSlots [] [] [] [] [] [] [] [] [] [] [] [] [MsgProfileResponse (mkProfileResponse (bs "0f94ce83-13b7-7568-e4fc-c02c7b47e7ab") (mkStatus (0)%Z (bs "INFO") []) [] [(mkMessageSet (bs "SIGNONMSGSETV1") (1)%Z (bs "https://ofx.example.com/cgi-ofx/exampleofx") 1%N true (bs "Example Trade") [(bs "ENG")] 2%N false false []); (mkMessageSet (bs "SIGNUPMSGSETV1") (1)%Z (bs "https://ofx.example.com/cgi-ofx/exampleofx") 1%N true (bs "Example Trade") [(bs "ENG")] 2%N false false []); (mkMessageSet (bs "INVSTMTMSGSETV1") (1)%Z (bs "https://ofx.example.com/cgi-ofx/exampleofx") 1%N true (bs "Example Trade") [(bs "ENG")] 2%N false false []); (mkMessageSet (bs "SECLISTMSGSETV1") (1)%Z (bs "https://ofx.example.com/cgi-ofx/exampleofx") 1%N true (bs "Example Trade") [(bs "ENG")] 2%N false false []); (mkMessageSet (bs "PROFMSGSETV1") (1)%Z (bs "https://ofx.example.com/cgi-ofx/exampleofx") 1%N true (bs "Example Trade") [(bs "ENG")] 2%N false false [])] [(mkSignonInfo (bs "Example Trade") (1)%Z (32)%Z 3%N false true false false false [] [] false false [] [] false false false)] (go_date (2002) (11) (19) (14) (0) (0) (0) (0) (bs "GMT")) (bs "Example Trade Financial") (bs "5555 Buhunkus Drive") [] [] (bs "Someville") (bs "NC") (bs "28801") (bs "USA") (bs "1-800-234-5678") (bs "1-800-234-5678") (bs "1-888-234-5678") (bs "http://www.example.com") (bs "service@example.com"))] []).
Example TestUnmarshalProfileResponse102 : parse_response sample_env TestUnmarshalProfileResponse102_input = (Some TestUnmarshalProfileResponse102_expected, None).
Proof. vm_compute. reflexivity. Qed.
Example TestUnmarshalProfileResponse102_round_trip : round_trips TestUnmarshalProfileResponse102_expected.
Proof. vm_compute. reflexivity. Qed.

(** signup_test.go, TestMarshalAcctInfoRequest. *)
Definition TestMarshalAcctInfoRequest_client : client := Basic (mkBasicClient 8%N (bs "OFXGO") (bs "0001") false false [] None).
Definition TestMarshalAcctInfoRequest_request : Request := set_client_fields (go_date (2016) (1) (15) (11) (23) (0) (0) (-18000) (bs "EST")) TestMarshalAcctInfoRequest_client
  (mkRequest [] 0%N (mkSignonRequest zero_time (bs "myusername") (bs "Pa$$word") [] false [] (bs "BNK") (bs "1987") [] [] []) (mkSlots [MsgAcctInfoRequest (mkAcctInfoRequest (bs "e3ad9bda-38fa-4e5b-8099-1bd567ddef7a") [] [] (go_date (2015) (12) (21) (18) (29) (45) (0) (-18000) (bs "EST")))] [] [] [] [] [] [] [] [] [] [] [] [] []) false false).
Example TestMarshalAcctInfoRequest : option_map (fun p => squeeze true (fst p)) (request_marshal TestMarshalAcctInfoRequest_request) = Some (bs "<?xml version=""1.0"" encoding=""UTF-8"" standalone=""no""?><?OFX OFXHEADER=""200"" VERSION=""203"" SECURITY=""NONE"" OLDFILEUID=""NONE"" NEWFILEUID=""NONE""?><OFX><SIGNONMSGSRQV1><SONRQ><DTCLIENT>20160115112300.000[-5:EST]</DTCLIENT><USERID>myusername</USERID><USERPASS>Pa$$word</USERPASS><LANGUAGE>ENG</LANGUAGE><FI><ORG>BNK</ORG><FID>1987</FID></FI><APPID>OFXGO</APPID><APPVER>0001</APPVER></SONRQ></SIGNONMSGSRQV1><SIGNUPMSGSRQV1><ACCTINFOTRNRQ><TRNUID>e3ad9bda-38fa-4e5b-8099-1bd567ddef7a</TRNUID><ACCTINFORQ><DTACCTUP>20151221182945.000[-5:EST]</DTACCTUP></ACCTINFORQ></ACCTINFOTRNRQ></SIGNUPMSGSRQV1></OFX>").
Proof. vm_compute. reflexivity. Qed.

(** signup_test.go, TestUnmarshalAcctInfoResponse. *)
Definition TestUnmarshalAcctInfoResponse_input : str := (doc [(bs "<?xml version=""1.0"" encoding=""UTF-8"" standalone=""no""?>");
  (bs "<?OFX OFXHEADER=""200"" VERSION=""203"" SECURITY=""NONE"" OLDFILEUID=""NONE"" NEWFILEUID=""NONE""?>");
  (bs "<OFX>");
  (bs "	<SIGNONMSGSRSV1>");
  (bs "		<SONRS>");
  (bs "			<STATUS>");
  (bs "				<CODE>0</CODE>");
  (bs "				<SEVERITY>INFO</SEVERITY>");
  (bs "			</STATUS>");
  (bs "			<DTSERVER>20060115112303</DTSERVER>");
  (bs "			<LANGUAGE>ENG</LANGUAGE>");
  (bs "			<DTPROFUP>20050221091300</DTPROFUP>");
  (bs "			<DTACCTUP>20060102160000</DTACCTUP>");
  (bs "			<FI>");
  (bs "				<ORG>BNK</ORG>");
  (bs "				<FID>1987</FID>");
  (bs "			</FI>");
  (bs "		</SONRS>");
  (bs "	</SIGNONMSGSRSV1>");
  (bs "	<SIGNUPMSGSRSV1>");
  (bs "		<ACCTINFOTRNRS>");
  (bs "			<TRNUID>10938754</TRNUID>");
  (bs "			<STATUS>");
  (bs "				<CODE>0</CODE>");
  (bs "				<SEVERITY>INFO</SEVERITY>");
  (bs "			</STATUS>");
  (bs "			<ACCTINFORS>");
  (bs "				<DTACCTUP>20050228</DTACCTUP>");
  (bs "				<ACCTINFO>");
  (bs "					<DESC>Personal Checking</DESC>");
  (bs "					<PHONE>888-222-5827</PHONE>");
  (bs "					<BANKACCTINFO>");
  (bs "						<BANKACCTFROM>");
  (bs "							<BANKID>8367556009</BANKID>");
  (bs "							<ACCTID>000999847</ACCTID>");
  (bs "							<ACCTTYPE>MONEYMRKT</ACCTTYPE>");
  (bs "						</BANKACCTFROM>");
  (bs "						<SUPTXDL>Y</SUPTXDL>");
  (bs "						<XFERSRC>Y</XFERSRC>");
  (bs "						<XFERDEST>Y</XFERDEST>");
  (bs "						<SVCSTATUS>ACTIVE</SVCSTATUS>");
  (bs "					</BANKACCTINFO>");
  (bs "				</ACCTINFO>");
  (bs "			</ACCTINFORS>");
  (bs "		</ACCTINFOTRNRS>");
  (bs "	</SIGNUPMSGSRSV1>");
  (bs "</OFX>")]).
Definition TestUnmarshalAcctInfoResponse_expected : Response := mkResponse 8%N (mkSignonResponse (mkStatus (0)%Z (bs "INFO") []) (go_date (2006) (1) (15) (11) (23) (3) (0) (0) (bs "GMT")) [] None (bs "ENG") (Some (go_date (2005) (2) (21) (9) (13) (0) (0) (0) (bs "GMT"))) (Some (go_date (2006) (1) (2) (16) (0) (0) (0) (0) (bs "GMT"))) (bs "BNK") (bs "1987") [] []) (mkSlots [MsgAcctInfoResponse (mkAcctInfoResponse (bs "10938754") (mkStatus (0)%Z (bs "INFO") []) [] (go_date (2005) (2) (28) (0) (0) (0) (0) (0) (bs "GMT")) [(mkAcctInfo [] (bs "Personal Checking") (bs "888-222-5827") (mkHolderInfo [] [] [] [] [] [] [] [] [] [] [] [] [] 0%N) (mkHolderInfo [] [] [] [] [] [] [] [] [] [] [] [] [] 0%N) (Some (mkBankAcctInfo (mkBankAcct (bs "8367556009") [] (bs "000999847") 3%N []) true true true zero_time (0 # 1)%Q (0 # 1)%Q 0%N (0 # 1)%Q 3%N)) None None)])] [] [] [] [] [] [] [] [] [] [] [] [] []).
Example TestUnmarshalAcctInfoResponse : parse_response sample_env TestUnmarshalAcctInfoResponse_input = (Some TestUnmarshalAcctInfoResponse_expected, None).
Proof. vm_compute. reflexivity. Qed.
Example TestUnmarshalAcctInfoResponse_round_trip : round_trips TestUnmarshalAcctInfoResponse_expected.
Proof. vm_compute. reflexivity. Qed.

(** samples/valid_responses/401k_v203.ofx, TestValidSamples, response_test.go:155-177. *)
Definition sample_401k_v203 : str := (doc [(concat [(bs "<?xml version=""1.0"" encoding=""UTF-8"" standalone=""no""?><?OFX OFXHEADER=""200"" VERSION=""203"" SECURITY=""NONE"" OLDFILEUID=""NONE"" NEWFILEUID=""NONE""?><OFX><SIGNONMSGSRSV1> <SONRS> <STATUS><CODE>0</CODE><SEVE"); (bs "RITY>INFO</SEVERITY><MESSAGE>SUCCESS</MESSAGE></STATUS><DTSERVER>20170406202132.828[-4:EDT]</DTSERVER><LANGUAGE>ENG</LANGUAGE><FI><ORG>SAHWI</ORG><FID>8133</FID></FI></SONRS></SIGNONMSGSRSV1><INVSTMTM"); (bs "SGSRSV1> <INVSTMTTRNRS><TRNUID>c8e9b92c-bf70-4145-9c24-c85284b20d3c</TRNUID> <STATUS><CODE>0</CODE><SEVERITY>INFO</SEVERITY><MESSAGE>SUCCESS</MESSAGE></STATUS><INVSTMTRS><DTASOF>20170406192133.020[-4:"); (bs "EDT]</DTASOF><CURDEF>USD</CURDEF><INVACCTFROM><BROKERID>fi.example.com</BROKERID><ACCTID>79451753939</ACCTID></INVACCTFROM> <INVTRANLIST><DTSTART>20170105192132.950[-5:EST]</DTSTART><DTEND>20170405202"); (bs "132.950[-4:EDT]</DTEND><BUYMF><INVBUY><INVTRAN><FITID>4efe0ca7-0f02-40fa-a064-aba0613bd6bb</FITID><DTTRADE>20170106070000.000[-5:EST]</DTTRADE><MEMO>CONTRIBUTION;VANGUARD TARGET 2045 OAEL;as of 01/06/"); (bs "2017</MEMO></INVTRAN><SECID><UNIQUEID>OAEL</UNIQUEID><UNIQUEIDTYPE>CUSIP</UNIQUEIDTYPE></SECID><UNITS>1451.8174914388237</UNITS><UNITPRICE>-1511.6547253613091</UNITPRICE><TOTAL>3909.809828287014</TOTA"); (bs "L><SUBACCTSEC>OTHER</SUBACCTSEC><SUBACCTFUND>OTHER</SUBACCTFUND></INVBUY><BUYTYPE>BUY</BUYTYPE>    </BUYMF><BUYMF><INVBUY><INVTRAN><FITID>c91ded6a-7587-4e12-9981-b41ad8a10b11</FITID><DTTRADE>201701200"); (bs "70000.000[-5:EST]</DTTRADE><MEMO>CONTRIBUTION;VANGUARD TARGET 2045 OAEL;as of 01/20/2017</MEMO></INVTRAN><SECID><UNIQUEID>OAEL</UNIQUEID><UNIQUEIDTYPE>CUSIP</UNIQUEIDTYPE></SECID><UNITS>1698.133578625"); (bs "033</UNITS><UNITPRICE>1727.6765303967318</UNITPRICE><TOTAL>3577.2910257455405</TOTAL><SUBACCTSEC>OTHER</SUBACCTSEC><SUBACCTFUND>OTHER</SUBACCTFUND></INVBUY><BUYTYPE>BUY</BUYTYPE>    </BUYMF><BUYMF><IN"); (bs "VBUY><INVTRAN><FITID>d4e8b94d-0601-450c-b862-e3eb4ab9bcf7</FITID><DTTRADE>20170203070000.000[-5:EST]</DTTRADE><MEMO>CONTRIBUTION;VANGUARD TARGET 2045 OAEL;as of 02/03/2017</MEMO></INVTRAN><SECID><UNIQ"); (bs "UEID>OAEL</UNIQUEID><UNIQUEIDTYPE>CUSIP</UNIQUEIDTYPE></SECID><UNITS>-861.0104210832337</UNITS><UNITPRICE>4091.2289289557075</UNITPRICE><TOTAL>258.62764651238285</TOTAL><SUBACCTSEC>OTHER</SUBACCTSEC><"); (bs "SUBACCTFUND>OTHER</SUBACCTFUND></INVBUY><BUYTYPE>BUY</BUYTYPE>    </BUYMF><BUYMF><INVBUY><INVTRAN><FITID>ce27d094-83fb-47c4-9cc7-942b8fa90f2a</FITID><DTTRADE>20170217070000.000[-5:EST]</DTTRADE><MEMO>"); (bs "CONTRIBUTION;VANGUARD TARGET 2045 OAEL;as of 02/17/2017</MEMO></INVTRAN><SECID><UNIQUEID>OAEL</UNIQUEID><UNIQUEIDTYPE>CUSIP</UNIQUEIDTYPE></SECID><UNITS>1483.633960187689</UNITS><UNITPRICE>4962.565904"); (bs "37185</UNITPRICE><TOTAL>4894.689514323327</TOTAL><SUBACCTSEC>OTHER</SUBACCTSEC><SUBACCTFUND>OTHER</SUBACCTFUND></INVBUY><BUYTYPE>BUY</BUYTYPE>    </BUYMF><BUYMF><INVBUY><INVTRAN><FITID>2c678c32-bdb2-4"); (bs "11c-95be-ce4b0b22476c</FITID><DTTRADE>20170303070000.000[-5:EST]</DTTRADE><MEMO>CONTRIBUTION;VANGUARD TARGET 2045 OAEL;as of 03/03/2017</MEMO></INVTRAN><SECID><UNIQUEID>OAEL</UNIQUEID><UNIQUEIDTYPE>CU"); (bs "SIP</UNIQUEIDTYPE></SECID><UNITS>4820.263907020751</UNITS><UNITPRICE>4533.508051253512</UNITPRICE><TOTAL>4586.446085462384</TOTAL><SUBACCTSEC>OTHER</SUBACCTSEC><SUBACCTFUND>OTHER</SUBACCTFUND></INVBUY"); (bs "><BUYTYPE>BUY</BUYTYPE>    </BUYMF><BUYMF><INVBUY><INVTRAN><FITID>87f95061-6eb8-4417-872d-b6b50d59b828</FITID><DTTRADE>20170317070000.000[-4:EDT]</DTTRADE><MEMO>CONTRIBUTION;VANGUARD TARGET 2045 OAEL;"); (bs "as of 03/17/2017</MEMO></INVTRAN><SECID><UNIQUEID>OAEL</UNIQUEID><UNIQUEIDTYPE>CUSIP</UNIQUEIDTYPE></SECID><UNITS>398.12130359284674</UNITS><UNITPRICE>4462.870483725029</UNITPRICE><TOTAL>-980.74548392"); (bs "21953</TOTAL><SUBACCTSEC>OTHER</SUBACCTSEC><SUBACCTFUND>OTHER</SUBACCTFUND></INVBUY><BUYTYPE>BUY</BUYTYPE>    </BUYMF><BUYMF><INVBUY><INVTRAN><FITID>8d82af65-1ec2-4617-a58e-66f9f1f17a1b</FITID><DTTRAD"); (bs "E>20170331070000.000[-4:EDT]</DTTRADE><MEMO>CONTRIBUTION;VANGUARD TARGET 2045 OAEL;as of 03/31/2017</MEMO></INVTRAN><SECID><UNIQUEID>OAEL</UNIQUEID><UNIQUEIDTYPE>CUSIP</UNIQUEIDTYPE></SECID><UNITS>-16"); (bs "75.047591144809</UNITS><UNITPRICE>3398.755275302541</UNITPRICE><TOTAL>4137.105758433049</TOTAL><SUBACCTSEC>OTHER</SUBACCTSEC><SUBACCTFUND>OTHER</SUBACCTFUND></INVBUY><BUYTYPE>BUY</BUYTYPE>    </BUYMF>"); (bs "</INVTRANLIST> <INVPOSLIST><POSMF><INVPOS><SECID><UNIQUEID>OAEL</UNIQUEID><UNIQUEIDTYPE>CUSIP</UNIQUEIDTYPE></SECID><HELDINACCT>OTHER</HELDINACCT><POSTYPE>LONG</POSTYPE><UNITS>3508.7072431017987</UNIT"); (bs "S><UNITPRICE>4265.298363227409</UNITPRICE><MKTVAL>-1285.6893734826635</MKTVAL>    <DTPRICEASOF>20170405160000.000[-4:EDT]</DTPRICEASOF>   <MEMO>Market close as of 04/05/2017;VANGUARD TARGET 2045</MEMO"); (bs "></INVPOS></POSMF></INVPOSLIST> <INVBAL><AVAILCASH>3118</AVAILCASH><MARGINBALANCE>2360</MARGINBALANCE><SHORTBALANCE>2408</SHORTBALANCE><BALLIST><BAL><NAME>MarketValue</NAME><DESC>MarketValue</DESC><BA"); (bs "LTYPE>DOLLAR</BALTYPE><VALUE>238.6182750915259</VALUE><DTASOF>20170406192133.020[-4:EDT]</DTASOF></BAL><BAL><NAME>VestedValue</NAME><DESC>VestedValue</DESC><BALTYPE>DOLLAR</BALTYPE><VALUE>4769.8621175"); (bs "74797</VALUE><DTASOF>20170406192133.020[-4:EDT]</DTASOF></BAL><BAL><NAME>TotalAssetsValue</NAME><DESC>TotalAssetsValue</DESC><BALTYPE>DOLLAR</BALTYPE><VALUE>3159.3943094763545</VALUE><DTASOF>201704061"); (bs "92133.020[-4:EDT]</DTASOF></BAL></BALLIST></INVBAL><INV401K><EMPLOYERNAME>QC 401(K) PLAN</EMPLOYERNAME></INV401K><INV401KBAL><TOTAL>2951.191737953516</TOTAL><BALLIST><BAL><NAME>MarketValue</NAME><DESC"); (bs ">MarketValue</DESC><BALTYPE>DOLLAR</BALTYPE><VALUE>1855.56557652199</VALUE><DTASOF>20170406192133.020[-4:EDT]</DTASOF></BAL><BAL><NAME>VestedValue</NAME><DESC>VestedValue</DESC><BALTYPE>DOLLAR</BALTYP"); (bs "E><VALUE>1535.8298944440207</VALUE><DTASOF>20170406192133.020[-4:EDT]</DTASOF></BAL><BAL><NAME>TotalAssetsValue</NAME><DESC>TotalAssetsValue</DESC><BALTYPE>DOLLAR</BALTYPE><VALUE>62.4904063375684</VAL"); (bs "UE><DTASOF>20170406192133.020[-4:EDT]</DTASOF></BAL></BALLIST></INV401KBAL></INVSTMTRS></INVSTMTTRNRS></INVSTMTMSGSRSV1> <SECLISTMSGSRSV1><SECLIST><MFINFO><SECINFO><SECID><UNIQUEID>OAEL</UNIQUEID><UNI"); (bs "QUEIDTYPE>CUSIP</UNIQUEIDTYPE></SECID><SECNAME>VANGUARD TARGET 2045</SECNAME><FIID>OAEL</FIID><UNITPRICE>-281.3371623586104</UNITPRICE><DTASOF>20170405160000.000[-4:EDT]</DTASOF><MEMO>Market close as "); (bs "of 04/05/2017;VANGUARD TARGET 2045</MEMO></SECINFO><MFTYPE>OTHER</MFTYPE></MFINFO></SECLIST></SECLISTMSGSRSV1></OFX>")])]).
Definition sample_401k_v203_check : Prop :=
  match parse_response sample_env sample_401k_v203 with
  | (Some r, None) => round_trips r
  | _ => False
  end.
Example sample_401k_v203_ok : sample_401k_v203_check.
Proof. vm_compute. reflexivity. Qed.

(** samples/valid_responses/inv_v202.ofx, TestValidSamples, response_test.go:155-177. *)
Definition sample_inv_v202 : str := (doc [(concat [(bs "<?xml version=""1.0"" encoding=""utf-8"" ?><?OFX OFXHEADER=""200"" VERSION=""202"" SECURITY=""NONE"" OLDFILEUID=""NONE"" NEWFILEUID=""NONE""?><OFX><SIGNONMSGSRSV1><SONRS><STATUS><CODE>0</CODE><SEVERITY>INFO</SEVERI"); (bs "TY><MESSAGE>Successful Sign On</MESSAGE></STATUS><DTSERVER>20170406192303[-5:EST]</DTSERVER><LANGUAGE>ENG</LANGUAGE><DTPROFUP>20140605083000</DTPROFUP><FI><ORG>TLILW</ORG><FID>1055</FID></FI><SESSCOOK"); (bs "IE>06NCJ.wUGTRH0oti9WlMhf3pe_rqXxd1ukz2</SESSCOOKIE></SONRS></SIGNONMSGSRSV1><INVSTMTMSGSRSV1><INVSTMTTRNRS><TRNUID>dd4ac034-448a-4613-b91d-984928345d6c</TRNUID><STATUS><CODE>0</CODE><SEVERITY>INFO</S"); (bs "EVERITY></STATUS><INVSTMTRS><DTASOF>20170406160000.000[-5:EST]</DTASOF><CURDEF>USD</CURDEF><INVACCTFROM><BROKERID>fi.example.com</BROKERID><ACCTID>13971288918</ACCTID></INVACCTFROM><INVTRANLIST><DTSTA"); (bs "RT>20151006160000.000[-5:EST]160000.000[-5:EST]</DTSTART><DTEND>20170406192303.000[-5:EST]</DTEND><BUYMF><INVBUY><INVTRAN><FITID>de647ad6-38fb-431e-aac4-34c5f13c420e</FITID><DTTRADE>20170315160000.000"); (bs "[-5:EST]</DTTRADE><DTSETTLE>20170316160000.000[-5:EST]</DTSETTLE><MEMO>BUY</MEMO></INVTRAN><SECID><UNIQUEID>921937108</UNIQUEID><UNIQUEIDTYPE>CUSIP</UNIQUEIDTYPE></SECID><UNITS>3824.9561497776986</UNI"); (bs "TS><UNITPRICE>2859.475796083826</UNITPRICE><TOTAL>-943.5043319408105</TOTAL><SUBACCTSEC>CASH</SUBACCTSEC><SUBACCTFUND>CASH</SUBACCTFUND></INVBUY><BUYTYPE>BUY</BUYTYPE></BUYMF><BUYMF><INVBUY><INVTRAN><"); (bs "FITID>714ccb86-c5a7-4c9d-9cf9-8f32ef1e679f</FITID><DTTRADE>20160606160000.000[-5:EST]</DTTRADE><DTSETTLE>20160607160000.000[-5:EST]</DTSETTLE><MEMO>BUY</MEMO></INVTRAN><SECID><UNIQUEID>922908728</UNIQ"); (bs "UEID><UNIQUEIDTYPE>CUSIP</UNIQUEIDTYPE></SECID><UNITS>-936.6718270646302</UNITS><UNITPRICE>-1111.9306674701193</UNITPRICE><TOTAL>1881.084138894339</TOTAL><SUBACCTSEC>CASH</SUBACCTSEC><SUBACCTFUND>CASH"); (bs "</SUBACCTFUND></INVBUY><BUYTYPE>BUY</BUYTYPE></BUYMF><BUYMF><INVBUY><INVTRAN><FITID>4cb6dcae-cb86-4344-8570-a9c5ec9708d7</FITID><DTTRADE>20160708160000.000[-5:EST]</DTTRADE><DTSETTLE>20160711160000.00"); (bs "0[-5:EST]</DTSETTLE><MEMO>BUY</MEMO></INVTRAN><SECID><UNIQUEID>922908728</UNIQUEID><UNIQUEIDTYPE>CUSIP</UNIQUEIDTYPE></SECID><UNITS>699.4447046891851</UNITS><UNITPRICE>363.8027792569965</UNITPRICE><TO"); (bs "TAL>3795.512144054378</TOTAL><SUBACCTSEC>CASH</SUBACCTSEC><SUBACCTFUND>CASH</SUBACCTFUND></INVBUY><BUYTYPE>BUY</BUYTYPE></BUYMF><BUYMF><INVBUY><INVTRAN><FITID>efaddcc4-cede-4bef-b9ef-7da02d544a3a</FIT"); (bs "ID><DTTRADE>20160624160000.000[-5:EST]</DTTRADE><DTSETTLE>20160627160000.000[-5:EST]</DTSETTLE><MEMO>BUY</MEMO></INVTRAN><SECID><UNIQUEID>921909602</UNIQUEID><UNIQUEIDTYPE>CUSIP</UNIQUEIDTYPE></SECID>"); (bs "<UNITS>-494.01115906217296</UNITS><UNITPRICE>49.39274242653801</UNITPRICE><TOTAL>261.55338688051506</TOTAL><SUBACCTSEC>CASH</SUBACCTSEC><SUBACCTFUND>CASH</SUBACCTFUND></INVBUY><BUYTYPE>BUY</BUYTYPE></"); (bs "BUYMF><BUYMF><INVBUY><INVTRAN><FITID>a21af8fb-6054-439c-9a26-2e14ba934160</FITID><DTTRADE>20160708160000.000[-5:EST]</DTTRADE><DTSETTLE>20160711160000.000[-5:EST]</DTSETTLE><MEMO>BUY</MEMO></INVTRAN><"); (bs "SECID><UNIQUEID>921909602</UNIQUEID><UNIQUEIDTYPE>CUSIP</UNIQUEIDTYPE></SECID><UNITS>3736.3895069700466</UNITS><UNITPRICE>3698.7829383158605</UNITPRICE><TOTAL>-1897.0973450115864</TOTAL><SUBACCTSEC>CA"); (bs "SH</SUBACCTSEC><SUBACCTFUND>CASH</SUBACCTFUND></INVBUY><BUYTYPE>BUY</BUYTYPE></BUYMF><BUYMF><INVBUY><INVTRAN><FITID>8de3b4f5-ad22-4805-8fd1-f72344e86300</FITID><DTTRADE>20160322160000.000[-5:EST]</DTT"); (bs "RADE><DTSETTLE>20160322160000.000[-5:EST]</DTSETTLE><MEMO>MONEY FUND PURCHASE</MEMO></INVTRAN><SECID><UNIQUEID>FED12Q45Q</UNIQUEID><UNIQUEIDTYPE>CUSIP</UNIQUEIDTYPE></SECID><UNITS>3221.5665716980166</"); (bs "UNITS><UNITPRICE>705.5007864208351</UNITPRICE><TOTAL>-1322.9060478923284</TOTAL><SUBACCTSEC>CASH</SUBACCTSEC><SUBACCTFUND>CASH</SUBACCTFUND></INVBUY><BUYTYPE>BUY</BUYTYPE></BUYMF><BUYMF><INVBUY><INVTR"); (bs "AN><FITID>ad28b781-8372-416a-9755-61e2d44489be</FITID><DTTRADE>20160331160000.000[-5:EST]</DTTRADE><DTSETTLE>20160331160000.000[-5:EST]</DTSETTLE><MEMO>MONEY FUND PURCHASE</MEMO></INVTRAN><SECID><UNIQ"); (bs "UEID>FED12Q45Q</UNIQUEID><UNIQUEIDTYPE>CUSIP</UNIQUEIDTYPE></SECID><UNITS>3674.003918319091</UNITS><UNITPRICE>-1435.673365926304</UNITPRICE><TOTAL>-362.7565458501381</TOTAL><SUBACCTSEC>CASH</SUBACCTSE"); (bs "C><SUBACCTFUND>CASH</SUBACCTFUND></INVBUY><BUYTYPE>BUY</BUYTYPE></BUYMF><BUYMF><INVBUY><INVTRAN><FITID>32993fde-e2db-4f79-8d4c-dcc49cdcb72c</FITID><DTTRADE>20160412160000.000[-5:EST]</DTTRADE><DTSETTL"); (bs "E>20160412160000.000[-5:EST]</DTSETTLE><MEMO>MONEY FUND PURCHASE</MEMO></INVTRAN><SECID><UNIQUEID>FED12Q45Q</UNIQUEID><UNIQUEIDTYPE>CUSIP</UNIQUEIDTYPE></SECID><UNITS>-495.00661745345815</UNITS><UNITP"); (bs "RICE>-1274.7417304464868</UNITPRICE><TOTAL>1551.8392618390644</TOTAL><SUBACCTSEC>CASH</SUBACCTSEC><SUBACCTFUND>CASH</SUBACCTFUND></INVBUY><BUYTYPE>BUY</BUYTYPE></BUYMF><BUYMF><INVBUY><INVTRAN><FITID>8"); (bs "e5edf9c-8c21-4501-ab59-4415cf4170f6</FITID><DTTRADE>20160623160000.000[-5:EST]</DTTRADE><DTSETTLE>20160623160000.000[-5:EST]</DTSETTLE><MEMO>MONEY FUND PURCHASE</MEMO></INVTRAN><SECID><UNIQUEID>FED12Q"); (bs "45Q</UNIQUEID><UNIQUEIDTYPE>CUSIP</UNIQUEIDTYPE></SECID><UNITS>3515.9628441137</UNITS><UNITPRICE>-1787.7474642873335</UNITPRICE><TOTAL>-1818.8440342775998</TOTAL><SUBACCTSEC>CASH</SUBACCTSEC><SUBACCTF"); (bs "UND>CASH</SUBACCTFUND></INVBUY><BUYTYPE>BUY</BUYTYPE></BUYMF><BUYMF><INVBUY><INVTRAN><FITID>b4d01c4c-e1ef-409d-9f48-2b644d9d848f</FITID><DTTRADE>20160629160000.000[-5:EST]</DTTRADE><DTSETTLE>201606291"); (bs "60000.000[-5:EST]</DTSETTLE><MEMO>MONEY FUND PURCHASE</MEMO></INVTRAN><SECID><UNIQUEID>FED12Q45Q</UNIQUEID><UNIQUEIDTYPE>CUSIP</UNIQUEIDTYPE></SECID><UNITS>1225.4461429600337</UNITS><UNITPRICE>366.516"); (bs "5936332555</UNITPRICE><TOTAL>1153.2510138507491</TOTAL><SUBACCTSEC>CASH</SUBACCTSEC><SUBACCTFUND>CASH</SUBACCTFUND></INVBUY><BUYTYPE>BUY</BUYTYPE></BUYMF><BUYMF><INVBUY><INVTRAN><FITID>eec03d0c-6453-4"); (bs "a53-b0a8-51f702e949aa</FITID><DTTRADE>20160713160000.000[-5:EST]</DTTRADE><DTSETTLE>20160713160000.000[-5:EST]</DTSETTLE><MEMO>MONEY FUND PURCHASE</MEMO></INVTRAN><SECID><UNIQUEID>FED12Q45Q</UNIQUEID>"); (bs "<UNIQUEIDTYPE>CUSIP</UNIQUEIDTYPE></SECID><UNITS>2498.406083177002</UNITS><UNITPRICE>-1208.3010162822115</UNITPRICE><TOTAL>1600.132544574224</TOTAL><SUBACCTSEC>CASH</SUBACCTSEC><SUBACCTFUND>CASH</SUBA"); (bs "CCTFUND></INVBUY><BUYTYPE>BUY</BUYTYPE></BUYMF><BUYMF><INVBUY><INVTRAN><FITID>502d83b5-ffa8-48bb-934c-56325c48a81f</FITID><DTTRADE>20160729160000.000[-5:EST]</DTTRADE><DTSETTLE>20160729160000.000[-5:E"); (bs "ST]</DTSETTLE><MEMO>MONEY FUND PURCHASE</MEMO></INVTRAN><SECID><UNIQUEID>FED12Q45Q</UNIQUEID><UNIQUEIDTYPE>CUSIP</UNIQUEIDTYPE></SECID><UNITS>4993.923954128822</UNITS><UNITPRICE>1707.5331796630198</UN"); (bs "ITPRICE><TOTAL>3649.7280516953333</TOTAL><SUBACCTSEC>CASH</SUBACCTSEC><SUBACCTFUND>CASH</SUBACCTFUND></INVBUY><BUYTYPE>BUY</BUYTYPE></BUYMF><BUYSTOCK><INVBUY><INVTRAN><FITID>5cafa134-09d3-4b3f-a1f1-02"); (bs "5cd8adbae5</FITID><DTTRADE>20160620160000.000[-5:EST]</DTTRADE><DTSETTLE>20160623160000.000[-5:EST]</DTSETTLE><MEMO>BUY</MEMO></INVTRAN><SECID><UNIQUEID>921909768</UNIQUEID><UNIQUEIDTYPE>CUSIP</UNIQUE"); (bs "IDTYPE></SECID><UNITS>797.5765771818847</UNITS><UNITPRICE>2662.72040200787</UNITPRICE><TOTAL>-275.77051479619445</TOTAL><SUBACCTSEC>CASH</SUBACCTSEC><SUBACCTFUND>CASH</SUBACCTFUND></INVBUY><BUYTYPE>BU"); (bs "Y</BUYTYPE></BUYSTOCK><BUYSTOCK><INVBUY><INVTRAN><FITID>e81bfeb2-499e-4f99-bbf6-79d53f20147d</FITID><DTTRADE>20160407160000.000[-5:EST]</DTTRADE><DTSETTLE>20160412160000.000[-5:EST]</DTSETTLE><MEMO>BU"); (bs "Y</MEMO></INVTRAN><SECID><UNIQUEID>922908769</UNIQUEID><UNIQUEIDTYPE>CUSIP</UNIQUEIDTYPE></SECID><UNITS>970.9179101188292</UNITS><UNITPRICE>-1998.7249049199902</UNITPRICE><TOTAL>-164.63123293080207</T"); (bs "OTAL><SUBACCTSEC>CASH</SUBACCTSEC><SUBACCTFUND>CASH</SUBACCTFUND></INVBUY><BUYTYPE>BUY</BUYTYPE></BUYSTOCK><BUYSTOCK><INVBUY><INVTRAN><FITID>e8be8c30-ebe5-4569-b28e-fb70879c1ccd</FITID><DTTRADE>201606"); (bs "20160000.000[-5:EST]</DTTRADE><DTSETTLE>20160623160000.000[-5:EST]</DTSETTLE><MEMO>BUY</MEMO></INVTRAN><SECID><UNIQUEID>921937835</UNIQUEID><UNIQUEIDTYPE>CUSIP</UNIQUEIDTYPE></SECID><UNITS>3873.497618"); (bs "552873</UNITS><UNITPRICE>3512.5093763919913</UNITPRICE><TOTAL>3108.422217648994</TOTAL><SUBACCTSEC>CASH</SUBACCTSEC><SUBACCTFUND>CASH</SUBACCTFUND></INVBUY><BUYTYPE>BUY</BUYTYPE></BUYSTOCK><INCOME><IN"); (bs "VTRAN><FITID>b9d4de3a-4adc-4a8f-a105-65309d891aec</FITID><DTTRADE>20160729160000.000[-5:EST]</DTTRADE><DTSETTLE>20160729160000.000[-5:EST]</DTSETTLE><MEMO>DIVIDEND PAYMENTDIVIDEND PAYMENT</MEMO></INVT"); (bs "RAN><SECID><UNIQUEID>78462F103</UNIQUEID><UNIQUEIDTYPE>CUSIP</UNIQUEIDTYPE></SECID><INCOMETYPE>DIV</INCOMETYPE><TOTAL>-1477.6134874063105</TOTAL><SUBACCTSEC>CASH</SUBACCTSEC><SUBACCTFUND>CASH</SUBACCT"); (bs "FUND></INCOME><INCOME><INVTRAN><FITID>b9bb3cd8-def2-4d56-802e-ec568e59d528</FITID><DTTRADE>20160627160000.000[-5:EST]</DTTRADE><DTSETTLE>20160627160000.000[-5:EST]</DTSETTLE><MEMO>DIVIDEND PAYMENTDIVI"); (bs "DEND PAYMENT</MEMO></INVTRAN><SECID><UNIQUEID>FED12Q45Q</UNIQUEID><UNIQUEIDTYPE>CUSIP</UNIQUEIDTYPE></SECID><INCOMETYPE>DIV</INCOMETYPE><TOTAL>1751.5484207314612</TOTAL><SUBACCTSEC>CASH</SUBACCTSEC><S"); (bs "UBACCTFUND>CASH</SUBACCTFUND></INCOME><REINVEST><INVTRAN><FITID>68dd7706-2643-4536-a393-559358d41f3b</FITID><DTTRADE>20160606160000.000[-5:EST]</DTTRADE><DTSETTLE>20160606160000.000[-5:EST]</DTSETTLE>"); (bs "<MEMO>DIVIDEND REINVESTMENTDIVIDEND REINVESTMENT</MEMO></INVTRAN><SECID><UNIQUEID>049560105</UNIQUEID><UNIQUEIDTYPE>CUSIP</UNIQUEIDTYPE></SECID><INCOMETYPE>DIV</INCOMETYPE><TOTAL>4665.123209260046</TO"); (bs "TAL><SUBACCTSEC>CASH</SUBACCTSEC><UNITS>687.4062074118997</UNITS><UNITPRICE>2608.9777289608946</UNITPRICE></REINVEST><REINVEST><INVTRAN><FITID>767d3192-8adb-432d-a497-d8a8194976bd</FITID><DTTRADE>2016"); (bs "0906160000.000[-5:EST]</DTTRADE><DTSETTLE>20160906160000.000[-5:EST]</DTSETTLE><MEMO>DIVIDEND REINVESTMENTDIVIDEND REINVESTMENT</MEMO></INVTRAN><SECID><UNIQUEID>049560105</UNIQUEID><UNIQUEIDTYPE>CUSIP"); (bs "</UNIQUEIDTYPE></SECID><INCOMETYPE>DIV</INCOMETYPE><TOTAL>3437.8395682876217</TOTAL><SUBACCTSEC>CASH</SUBACCTSEC><UNITS>3896.0034382169033</UNITS><UNITPRICE>281.58504788855</UNITPRICE></REINVEST><REIN"); (bs "VEST><INVTRAN><FITID>0cad8534-c48a-4163-919f-30a4d3387bc7</FITID><DTTRADE>20161212160000.000[-5:EST]</DTTRADE><DTSETTLE>20161212160000.000[-5:EST]</DTSETTLE><MEMO>DIVIDEND REINVESTMENTDIVIDEND REINVES"); (bs "TMENT</MEMO></INVTRAN><SECID><UNIQUEID>049560105</UNIQUEID><UNIQUEIDTYPE>CUSIP</UNIQUEIDTYPE></SECID><INCOMETYPE>DIV</INCOMETYPE><TOTAL>559.222484741992</TOTAL><SUBACCTSEC>CASH</SUBACCTSEC><UNITS>1000"); (bs ".910441584736</UNITS><UNITPRICE>4967.567166366519</UNITPRICE></REINVEST><REINVEST><INVTRAN><FITID>04ea0cd9-d24d-4c4f-bf83-d292e0cc7e70</FITID><DTTRADE>20170313160000.000[-5:EST]</DTTRADE><DTSETTLE>201"); (bs "70313160000.000[-5:EST]</DTSETTLE><MEMO>DIVIDEND REINVESTMENTDIVIDEND REINVESTMENT</MEMO></INVTRAN><SECID><UNIQUEID>049560105</UNIQUEID><UNIQUEIDTYPE>CUSIP</UNIQUEIDTYPE></SECID><INCOMETYPE>DIV</INCOM"); (bs "ETYPE><TOTAL>-804.5795400324632</TOTAL><SUBACCTSEC>CASH</SUBACCTSEC><UNITS>3460.530468110246</UNITS><UNITPRICE>4531.655627986529</UNITPRICE></REINVEST><REINVEST><INVTRAN><FITID>1715c17f-4196-4869-ae4c"); (bs "-74bfda77cdf6</FITID><DTTRADE>20170331160000.000[-5:EST]</DTTRADE><DTSETTLE>20170331160000.000[-5:EST]</DTSETTLE><MEMO>DIVIDEND REINVESTMENTDIVIDEND REINVESTMENT</MEMO></INVTRAN><SECID><UNIQUEID>92193"); (bs "7108</UNIQUEID><UNIQUEIDTYPE>CUSIP</UNIQUEIDTYPE></SECID><INCOMETYPE>DIV</INCOMETYPE><TOTAL>-199.0248089881802</TOTAL><SUBACCTSEC>CASH</SUBACCTSEC><UNITS>-896.9373178685921</UNITS><UNITPRICE>3769.5565"); (bs "36805486</UNITPRICE></REINVEST><REINVEST><INVTRAN><FITID>510c52d3-5a36-4a49-bb89-d27a88c38896</FITID><DTTRADE>20160429160000.000[-5:EST]</DTTRADE><DTSETTLE>20160429160000.000[-5:EST]</DTSETTLE><MEMO>D"); (bs "IVIDEND REINVESTMENTDIVIDEND REINVESTMENT</MEMO></INVTRAN><SECID><UNIQUEID>78462F103</UNIQUEID><UNIQUEIDTYPE>CUSIP</UNIQUEIDTYPE></SECID><INCOMETYPE>DIV</INCOMETYPE><TOTAL>3599.617072348834</TOTAL><SU"); (bs "BACCTSEC>CASH</SUBACCTSEC><UNITS>4217.247725936561</UNITS><UNITPRICE>4443.307423188817</UNITPRICE></REINVEST><REINVEST><INVTRAN><FITID>1bbda50a-4241-4574-8eea-6d701915eaa6</FITID><DTTRADE>201606201600"); (bs "00.000[-5:EST]</DTTRADE><DTSETTLE>20160620160000.000[-5:EST]</DTSETTLE><MEMO>DIVIDEND REINVESTMENTDIVIDEND REINVESTMENT</MEMO></INVTRAN><SECID><UNIQUEID>922908769</UNIQUEID><UNIQUEIDTYPE>CUSIP</UNIQUE"); (bs "IDTYPE></SECID><INCOMETYPE>DIV</INCOMETYPE><TOTAL>4801.656470737234</TOTAL><SUBACCTSEC>CASH</SUBACCTSEC><UNITS>4850.350814371729</UNITS><UNITPRICE>197.02138351123904</UNITPRICE></REINVEST><REINVEST><I"); (bs "NVTRAN><FITID>15f48a59-fa18-4d79-be7b-aa895dace10e</FITID><DTTRADE>20160613160000.000[-5:EST]</DTTRADE><DTSETTLE>20160613160000.000[-5:EST]</DTSETTLE><MEMO>DIVIDEND REINVESTMENTDIVIDEND REINVESTMENT</"); (bs "MEMO></INVTRAN><SECID><UNIQUEID>922908728</UNIQUEID><UNIQUEIDTYPE>CUSIP</UNIQUEIDTYPE></SECID><INCOMETYPE>DIV</INCOMETYPE><TOTAL>4283.192496197073</TOTAL><SUBACCTSEC>CASH</SUBACCTSEC><UNITS>50.3849084"); (bs "10886055</UNITS><UNITPRICE>4191.032455604349</UNITPRICE></REINVEST><REINVEST><INVTRAN><FITID>c0cbe4af-a9cc-414f-a2f3-1c16c7e8ce09</FITID><DTTRADE>20160912160000.000[-5:EST]</DTTRADE><DTSETTLE>20160912"); (bs "160000.000[-5:EST]</DTSETTLE><MEMO>DIVIDEND REINVESTMENTDIVIDEND REINVESTMENT</MEMO></INVTRAN><SECID><UNIQUEID>922908728</UNIQUEID><UNIQUEIDTYPE>CUSIP</UNIQUEIDTYPE></SECID><INCOMETYPE>DIV</INCOMETYPE"); (bs "><TOTAL>2592.639549298905</TOTAL><SUBACCTSEC>CASH</SUBACCTSEC><UNITS>3013.4291202195436</UNITS><UNITPRICE>-1532.8386386523748</UNITPRICE></REINVEST><REINVEST><INVTRAN><FITID>96c8ba63-b67d-4c01-97dc-4f"); (bs "0197da4e55</FITID><DTTRADE>20161219160000.000[-5:EST]</DTTRADE><DTSETTLE>20161219160000.000[-5:EST]</DTSETTLE><MEMO>DIVIDEND REINVESTMENTDIVIDEND REINVESTMENT</MEMO></INVTRAN><SECID><UNIQUEID>92290872"); (bs "8</UNIQUEID><UNIQUEIDTYPE>CUSIP</UNIQUEIDTYPE></SECID><INCOMETYPE>DIV</INCOMETYPE><TOTAL>-840.5784945499015</TOTAL><SUBACCTSEC>CASH</SUBACCTSEC><UNITS>1266.312419760618</UNITS><UNITPRICE>3726.48468570"); (bs "8977</UNITPRICE></REINVEST><REINVEST><INVTRAN><FITID>bb0c2a67-2997-401d-9fec-75ac7da0e25a</FITID><DTTRADE>20170323160000.000[-5:EST]</DTTRADE><DTSETTLE>20170323160000.000[-5:EST]</DTSETTLE><MEMO>DIVID"); (bs "END REINVESTMENTDIVIDEND REINVESTMENT</MEMO></INVTRAN><SECID><UNIQUEID>922908728</UNIQUEID><UNIQUEIDTYPE>CUSIP</UNIQUEIDTYPE></SECID><INCOMETYPE>DIV</INCOMETYPE><TOTAL>194.4819761372787</TOTAL><SUBACC"); (bs "TSEC>CASH</SUBACCTSEC><UNITS>569.9490360903501</UNITS><UNITPRICE>4927.735196476322</UNITPRICE></REINVEST><REINVEST><INVTRAN><FITID>6633eb88-d7be-4852-a253-950b2195a8be</FITID><DTTRADE>20160708160000.0"); (bs "00[-5:EST]</DTTRADE><DTSETTLE>20160708160000.000[-5:EST]</DTSETTLE><MEMO>DIVIDEND REINVESTMENTDIVIDEND REINVESTMENT</MEMO></INVTRAN><SECID><UNIQUEID>921937835</UNIQUEID><UNIQUEIDTYPE>CUSIP</UNIQUEIDTY"); (bs "PE></SECID><INCOMETYPE>DIV</INCOMETYPE><TOTAL>-1888.2662493974499</TOTAL><SUBACCTSEC>CASH</SUBACCTSEC><UNITS>1478.387428924409</UNITS><UNITPRICE>-99.46010783475981</UNITPRICE></REINVEST><REINVEST><INV"); (bs "TRAN><FITID>a5e85d6a-cbe9-4eb1-a8ca-2f2963610f9c</FITID><DTTRADE>20160805160000.000[-5:EST]</DTTRADE><DTSETTLE>20160805160000.000[-5:EST]</DTSETTLE><MEMO>DIVIDEND REINVESTMENTDIVIDEND REINVESTMENT</ME"); (bs "MO></INVTRAN><SECID><UNIQUEID>921937835</UNIQUEID><UNIQUEIDTYPE>CUSIP</UNIQUEIDTYPE></SECID><INCOMETYPE>DIV</INCOMETYPE><TOTAL>-1386.5211858727876</TOTAL><SUBACCTSEC>CASH</SUBACCTSEC><UNITS>1508.15816"); (bs "41848293</UNITS><UNITPRICE>-1378.7609375925254</UNITPRICE></REINVEST><REINVEST><INVTRAN><FITID>878c9aba-7661-4b62-a6d3-cf87971845f2</FITID><DTTRADE>20160908160000.000[-5:EST]</DTTRADE><DTSETTLE>201609"); (bs "08160000.000[-5:EST]</DTSETTLE><MEMO>DIVIDEND REINVESTMENTDIVIDEND REINVESTMENT</MEMO></INVTRAN><SECID><UNIQUEID>921937835</UNIQUEID><UNIQUEIDTYPE>CUSIP</UNIQUEIDTYPE></SECID><INCOMETYPE>DIV</INCOMETY"); (bs "PE><TOTAL>-1414.0447828528177</TOTAL><SUBACCTSEC>CASH</SUBACCTSEC><UNITS>445.5239214525827</UNITS><UNITPRICE>-172.45635459467644</UNITPRICE></REINVEST><REINVEST><INVTRAN><FITID>8e41a7e1-d66a-428f-9cda"); (bs "-88faa50f4c11</FITID><DTTRADE>20161007160000.000[-5:EST]</DTTRADE><DTSETTLE>20161007160000.000[-5:EST]</DTSETTLE><MEMO>DIVIDEND REINVESTMENTDIVIDEND REINVESTMENT</MEMO></INVTRAN><SECID><UNIQUEID>92193"); (bs "7835</UNIQUEID><UNIQUEIDTYPE>CUSIP</UNIQUEIDTYPE></SECID><INCOMETYPE>DIV</INCOMETYPE><TOTAL>4836.862627205668</TOTAL><SUBACCTSEC>CASH</SUBACCTSEC><UNITS>-1848.7398241240553</UNITS><UNITPRICE>3484.7049"); (bs "4148761</UNITPRICE></REINVEST><REINVEST><INVTRAN><FITID>fd5193a1-50ff-4c77-992b-f121fe18ac9d</FITID><DTTRADE>20161107160000.000[-5:EST]</DTTRADE><DTSETTLE>20161107160000.000[-5:EST]</DTSETTLE><MEMO>DI"); (bs "VIDEND REINVESTMENTDIVIDEND REINVESTMENT</MEMO></INVTRAN><SECID><UNIQUEID>921937835</UNIQUEID><UNIQUEIDTYPE>CUSIP</UNIQUEIDTYPE></SECID><INCOMETYPE>DIV</INCOMETYPE><TOTAL>1674.3790257730475</TOTAL><SU"); (bs "BACCTSEC>CASH</SUBACCTSEC><UNITS>4068.3057004416214</UNITS><UNITPRICE>-458.0712334291586</UNITPRICE></REINVEST><REINVEST><INVTRAN><FITID>246eefac-86a5-48d9-ac62-88665d4f57cb</FITID><DTTRADE>2016120716"); (bs "0000.000[-5:EST]</DTTRADE><DTSETTLE>20161207160000.000[-5:EST]</DTSETTLE><MEMO>DIVIDEND REINVESTMENTDIVIDEND REINVESTMENT</MEMO></INVTRAN><SECID><UNIQUEID>921937835</UNIQUEID><UNIQUEIDTYPE>CUSIP</UNIQ"); (bs "UEIDTYPE></SECID><INCOMETYPE>DIV</INCOMETYPE><TOTAL>-697.60213411001</TOTAL><SUBACCTSEC>CASH</SUBACCTSEC><UNITS>1223.1913821397843</UNITS><UNITPRICE>-821.7273826433402</UNITPRICE></REINVEST><REINVEST>"); (bs "<INVTRAN><FITID>ff06f5a6-4806-403b-8091-743dbbe3d663</FITID><DTTRADE>20161229160000.000[-5:EST]</DTTRADE><DTSETTLE>20161229160000.000[-5:EST]</DTSETTLE><MEMO>DIVIDEND REINVESTMENTDIVIDEND REINVESTMENT"); (bs "</MEMO></INVTRAN><SECID><UNIQUEID>921937835</UNIQUEID><UNIQUEIDTYPE>CUSIP</UNIQUEIDTYPE></SECID><INCOMETYPE>DIV</INCOMETYPE><TOTAL>3770.210174013371</TOTAL><SUBACCTSEC>CASH</SUBACCTSEC><UNITS>1489.788"); (bs "8313470862</UNITS><UNITPRICE>815.1762795992504</UNITPRICE></REINVEST><REINVEST><INVTRAN><FITID>df123aa5-b2c1-48b7-a41e-d475005fc9ca</FITID><DTTRADE>20161229160000.000[-5:EST]</DTTRADE><DTSETTLE>201612"); (bs "29160000.000[-5:EST]</DTSETTLE><MEMO>DIV REINVEST LT CAP GAIN</MEMO></INVTRAN><SECID><UNIQUEID>921937835</UNIQUEID><UNIQUEIDTYPE>CUSIP</UNIQUEIDTYPE></SECID><INCOMETYPE>DIV</INCOMETYPE><TOTAL>1781.984"); (bs "7395203892</TOTAL><SUBACCTSEC>CASH</SUBACCTSEC><UNITS>-1864.7526784443658</UNITS><UNITPRICE>860.6009700187328</UNITPRICE></REINVEST><REINVEST><INVTRAN><FITID>db167683-8917-4f21-862a-b2170aebd0ac</FITI"); (bs "D><DTTRADE>20161229160000.000[-5:EST]</DTTRADE><DTSETTLE>20161229160000.000[-5:EST]</DTSETTLE><MEMO>DIV REINVEST ST CAP GAIN</MEMO></INVTRAN><SECID><UNIQUEID>921937835</UNIQUEID><UNIQUEIDTYPE>CUSIP</U"); (bs "NIQUEIDTYPE></SECID><INCOMETYPE>DIV</INCOMETYPE><TOTAL>2851.6793885008674</TOTAL><SUBACCTSEC>CASH</SUBACCTSEC><UNITS>429.0849160317348</UNITS><UNITPRICE>-1222.3552596775967</UNITPRICE></REINVEST><REIN"); (bs "VEST><INVTRAN><FITID>158986ca-ab01-4edf-9312-094c2d1e4025</FITID><DTTRADE>20170207160000.000[-5:EST]</DTTRADE><DTSETTLE>20170207160000.000[-5:EST]</DTSETTLE><MEMO>DIVIDEND REINVESTMENTDIVIDEND REINVES"); (bs "TMENT</MEMO></INVTRAN><SECID><UNIQUEID>921937835</UNIQUEID><UNIQUEIDTYPE>CUSIP</UNIQUEIDTYPE></SECID><INCOMETYPE>DIV</INCOMETYPE><TOTAL>663.9823123641668</TOTAL><SUBACCTSEC>CASH</SUBACCTSEC><UNITS>489"); (bs "9.138916697189</UNITS><UNITPRICE>-1563.802650539355</UNITPRICE></REINVEST><REINVEST><INVTRAN><FITID>b0925442-08c3-4c67-ad18-ea6d1dd04f2f</FITID><DTTRADE>20170307160000.000[-5:EST]</DTTRADE><DTSETTLE>2"); (bs "0170307160000.000[-5:EST]</DTSETTLE><MEMO>DIVIDEND REINVESTMENTDIVIDEND REINVESTMENT</MEMO></INVTRAN><SECID><UNIQUEID>921937835</UNIQUEID><UNIQUEIDTYPE>CUSIP</UNIQUEIDTYPE></SECID><INCOMETYPE>DIV</INC"); (bs "OMETYPE><TOTAL>2744.502124012006</TOTAL><SUBACCTSEC>CASH</SUBACCTSEC><UNITS>1958.1477299349744</UNITS><UNITPRICE>4132.228202840814</UNITPRICE></REINVEST><REINVEST><INVTRAN><FITID>7df019fd-2285-4b05-88"); (bs "b6-f8ca2a343594</FITID><DTTRADE>20160330160000.000[-5:EST]</DTTRADE><DTSETTLE>20160330160000.000[-5:EST]</DTSETTLE><MEMO>DIVIDEND REINVESTMENTDIVIDEND REINVESTMENT</MEMO></INVTRAN><SECID><UNIQUEID>464"); (bs "287655</UNIQUEID><UNIQUEIDTYPE>CUSIP</UNIQUEIDTYPE></SECID><INCOMETYPE>DIV</INCOMETYPE><TOTAL>-1876.9501097583257</TOTAL><SUBACCTSEC>CASH</SUBACCTSEC><UNITS>1112.6152006675607</UNITS><UNITPRICE>-1613."); (bs "8151036363959</UNITPRICE></REINVEST><REINVEST><INVTRAN><FITID>ccc1740a-51c8-4a5c-8a5c-46e4068c92d3</FITID><DTTRADE>20160912160000.000[-5:EST]</DTTRADE><DTSETTLE>20160912160000.000[-5:EST]</DTSETTLE><M"); (bs "EMO>DIVIDEND REINVESTMENTDIVIDEND REINVESTMENT</MEMO></INVTRAN><SECID><UNIQUEID>921909602</UNIQUEID><UNIQUEIDTYPE>CUSIP</UNIQUEIDTYPE></SECID><INCOMETYPE>DIV</INCOMETYPE><TOTAL>-747.5029507231845</TOT"); (bs "AL><SUBACCTSEC>CASH</SUBACCTSEC><UNITS>-427.03654986838114</UNITS><UNITPRICE>-833.4083610380633</UNITPRICE></REINVEST><REINVEST><INVTRAN><FITID>ced017e7-18d8-4fa1-acb4-a0d19f346f6e</FITID><DTTRADE>201"); (bs "61219160000.000[-5:EST]</DTTRADE><DTSETTLE>20161219160000.000[-5:EST]</DTSETTLE><MEMO>DIVIDEND REINVESTMENTDIVIDEND REINVESTMENT</MEMO></INVTRAN><SECID><UNIQUEID>921909602</UNIQUEID><UNIQUEIDTYPE>CUSI"); (bs "P</UNIQUEIDTYPE></SECID><INCOMETYPE>DIV</INCOMETYPE><TOTAL>4261.009665361342</TOTAL><SUBACCTSEC>CASH</SUBACCTSEC><UNITS>-388.7065731312666</UNITS><UNITPRICE>2042.101658644944</UNITPRICE></REINVEST><RE"); (bs "INVEST><INVTRAN><FITID>aebcf801-43cf-45bd-91ed-e6400c30fa83</FITID><DTTRADE>20170323160000.000[-5:EST]</DTTRADE><DTSETTLE>20170323160000.000[-5:EST]</DTSETTLE><MEMO>DIVIDEND REINVESTMENTDIVIDEND REINV"); (bs "ESTMENT</MEMO></INVTRAN><SECID><UNIQUEID>921909602</UNIQUEID><UNIQUEIDTYPE>CUSIP</UNIQUEIDTYPE></SECID><INCOMETYPE>DIV</INCOMETYPE><TOTAL>2465.891796916825</TOTAL><SUBACCTSEC>CASH</SUBACCTSEC><UNITS>4"); (bs "356.4145624090015</UNITS><UNITPRICE>-970.8551166422644</UNITPRICE></REINVEST><REINVEST><INVTRAN><FITID>8062028a-05cb-4b0e-992a-a5bea0cfaddd</FITID><DTTRADE>20160331160000.000[-5:EST]</DTTRADE><DTSETTL"); (bs "E>20160331160000.000[-5:EST]</DTSETTLE><MEMO>DIVIDEND REINVESTMENTDIVIDEND REINVESTMENT</MEMO></INVTRAN><SECID><UNIQUEID>FED12Q45Q</UNIQUEID><UNIQUEIDTYPE>CUSIP</UNIQUEIDTYPE></SECID><INCOMETYPE>DIV</"); (bs "INCOMETYPE><TOTAL>258.71226421087067</TOTAL><SUBACCTSEC>CASH</SUBACCTSEC><UNITS>1994.4503222858289</UNITS><UNITPRICE>3550.717727066314</UNITPRICE></REINVEST><REINVEST><INVTRAN><FITID>db1db72d-9694-42b"); (bs "f-a03c-22e7fed8e13a</FITID><DTTRADE>20160429160000.000[-5:EST]</DTTRADE><DTSETTLE>20160429160000.000[-5:EST]</DTSETTLE><MEMO>DIVIDEND REINVESTMENTDIVIDEND REINVESTMENT</MEMO></INVTRAN><SECID><UNIQUEID"); (bs ">FED12Q45Q</UNIQUEID><UNIQUEIDTYPE>CUSIP</UNIQUEIDTYPE></SECID><INCOMETYPE>DIV</INCOMETYPE><TOTAL>3688.672913300633</TOTAL><SUBACCTSEC>CASH</SUBACCTSEC><UNITS>3651.4810695887454</UNITS><UNITPRICE>933."); (bs "9259775180922</UNITPRICE></REINVEST><REINVEST><INVTRAN><FITID>09955123-3065-4076-880f-601ccc95f58a</FITID><DTTRADE>20160531160000.000[-5:EST]</DTTRADE><DTSETTLE>20160531160000.000[-5:EST]</DTSETTLE><M"); (bs "EMO>DIVIDEND REINVESTMENTDIVIDEND REINVESTMENT</MEMO></INVTRAN><SECID><UNIQUEID>FED12Q45Q</UNIQUEID><UNIQUEIDTYPE>CUSIP</UNIQUEIDTYPE></SECID><INCOMETYPE>DIV</INCOMETYPE><TOTAL>2666.517573929893</TOTA"); (bs "L><SUBACCTSEC>CASH</SUBACCTSEC><UNITS>-347.17198994326554</UNITS><UNITPRICE>-1311.963332976477</UNITPRICE></REINVEST><REINVEST><INVTRAN><FITID>a5767318-b4eb-4ffd-a7a3-2cbed4858ea8</FITID><DTTRADE>2016"); (bs "0831160000.000[-5:EST]</DTTRADE><DTSETTLE>20160831160000.000[-5:EST]</DTSETTLE><MEMO>DIVIDEND REINVESTMENTDIVIDEND REINVESTMENT</MEMO></INVTRAN><SECID><UNIQUEID>FED12Q45Q</UNIQUEID><UNIQUEIDTYPE>CUSIP"); (bs "</UNIQUEIDTYPE></SECID><INCOMETYPE>DIV</INCOMETYPE><TOTAL>4951.177346049531</TOTAL><SUBACCTSEC>CASH</SUBACCTSEC><UNITS>4175.989618842068</UNITS><UNITPRICE>-1358.8888703376006</UNITPRICE></REINVEST><RE"); (bs "INVEST><INVTRAN><FITID>73678cfe-03c9-4cdd-ba68-0faca0d0e254</FITID><DTTRADE>20160930160000.000[-5:EST]</DTTRADE><DTSETTLE>20160930160000.000[-5:EST]</DTSETTLE><MEMO>DIVIDEND REINVESTMENTDIVIDEND REINV"); (bs "ESTMENT</MEMO></INVTRAN><SECID><UNIQUEID>FED12Q45Q</UNIQUEID><UNIQUEIDTYPE>CUSIP</UNIQUEIDTYPE></SECID><INCOMETYPE>DIV</INCOMETYPE><TOTAL>-443.4906622325843</TOTAL><SUBACCTSEC>CASH</SUBACCTSEC><UNITS>"); (bs "-1435.7484320772205</UNITS><UNITPRICE>275.57230926506645</UNITPRICE></REINVEST><REINVEST><INVTRAN><FITID>4c5cbd18-46c0-4202-9396-e61cbca47b8d</FITID><DTTRADE>20161031160000.000[-5:EST]</DTTRADE><DTSET"); (bs "TLE>20161031160000.000[-5:EST]</DTSETTLE><MEMO>DIVIDEND REINVESTMENTDIVIDEND REINVESTMENT</MEMO></INVTRAN><SECID><UNIQUEID>FED12Q45Q</UNIQUEID><UNIQUEIDTYPE>CUSIP</UNIQUEIDTYPE></SECID><INCOMETYPE>DIV"); (bs "</INCOMETYPE><TOTAL>1605.7657503064056</TOTAL><SUBACCTSEC>CASH</SUBACCTSEC><UNITS>3971.830099850472</UNITS><UNITPRICE>-895.7166526891983</UNITPRICE></REINVEST><REINVEST><INVTRAN><FITID>b9c97d11-473b-4"); (bs "ebd-bf8d-2acfd697cdba</FITID><DTTRADE>20161130160000.000[-5:EST]</DTTRADE><DTSETTLE>20161130160000.000[-5:EST]</DTSETTLE><MEMO>DIVIDEND REINVESTMENTDIVIDEND REINVESTMENT</MEMO></INVTRAN><SECID><UNIQUE"); (bs "ID>FED12Q45Q</UNIQUEID><UNIQUEIDTYPE>CUSIP</UNIQUEIDTYPE></SECID><INCOMETYPE>DIV</INCOMETYPE><TOTAL>2324.900790886096</TOTAL><SUBACCTSEC>CASH</SUBACCTSEC><UNITS>-458.5953248656965</UNITS><UNITPRICE>-9"); (bs "17.8604050931776</UNITPRICE></REINVEST><REINVEST><INVTRAN><FITID>17ccd8b3-53a2-4263-bfcb-362f65a0cd24</FITID><DTTRADE>20161230160000.000[-5:EST]</DTTRADE><DTSETTLE>20161230160000.000[-5:EST]</DTSETTLE"); (bs "><MEMO>DIVIDEND REINVESTMENTDIVIDEND REINVESTMENT</MEMO></INVTRAN><SECID><UNIQUEID>FED12Q45Q</UNIQUEID><UNIQUEIDTYPE>CUSIP</UNIQUEIDTYPE></SECID><INCOMETYPE>DIV</INCOMETYPE><TOTAL>-788.0354705690729</"); (bs "TOTAL><SUBACCTSEC>CASH</SUBACCTSEC><UNITS>3433.538315146986</UNITS><UNITPRICE>721.2715150817912</UNITPRICE></REINVEST><REINVEST><INVTRAN><FITID>f8990096-bb99-4436-872f-b201748a658e</FITID><DTTRADE>201"); (bs "70131160000.000[-5:EST]</DTTRADE><DTSETTLE>20170131160000.000[-5:EST]</DTSETTLE><MEMO>DIVIDEND REINVESTMENTDIVIDEND REINVESTMENT</MEMO></INVTRAN><SECID><UNIQUEID>FED12Q45Q</UNIQUEID><UNIQUEIDTYPE>CUSI"); (bs "P</UNIQUEIDTYPE></SECID><INCOMETYPE>DIV</INCOMETYPE><TOTAL>3694.493368489051</TOTAL><SUBACCTSEC>CASH</SUBACCTSEC><UNITS>2123.633147710315</UNITS><UNITPRICE>-1842.162661124652</UNITPRICE></REINVEST><RE"); (bs "INVEST><INVTRAN><FITID>c723a4c9-38a5-4177-bb54-27f6d6497148</FITID><DTTRADE>20170228160000.000[-5:EST]</DTTRADE><DTSETTLE>20170228160000.000[-5:EST]</DTSETTLE><MEMO>DIVIDEND REINVESTMENTDIVIDEND REINV"); (bs "ESTMENT</MEMO></INVTRAN><SECID><UNIQUEID>FED12Q45Q</UNIQUEID><UNIQUEIDTYPE>CUSIP</UNIQUEIDTYPE></SECID><INCOMETYPE>DIV</INCOMETYPE><TOTAL>-1686.0597755682554</TOTAL><SUBACCTSEC>CASH</SUBACCTSEC><UNITS"); (bs ">-426.95493832616444</UNITS><UNITPRICE>-1490.5751476938383</UNITPRICE></REINVEST><REINVEST><INVTRAN><FITID>7c196cd5-b15c-4c28-97d6-662c73de39f1</FITID><DTTRADE>20170331160000.000[-5:EST]</DTTRADE><DTS"); (bs "ETTLE>20170331160000.000[-5:EST]</DTSETTLE><MEMO>DIVIDEND REINVESTMENTDIVIDEND REINVESTMENT</MEMO></INVTRAN><SECID><UNIQUEID>FED12Q45Q</UNIQUEID><UNIQUEIDTYPE>CUSIP</UNIQUEIDTYPE></SECID><INCOMETYPE>D"); (bs "IV</INCOMETYPE><TOTAL>1608.9423884884068</TOTAL><SUBACCTSEC>CASH</SUBACCTSEC><UNITS>2806.670702862508</UNITS><UNITPRICE>-1985.0186597915401</UNITPRICE></REINVEST><REINVEST><INVTRAN><FITID>83d5c032-b13"); (bs "8-4e04-81d3-cd28ae0fb248</FITID><DTTRADE>20160329160000.000[-5:EST]</DTTRADE><DTSETTLE>20160329160000.000[-5:EST]</DTSETTLE><MEMO>DIVIDEND REINVESTMENTDIVIDEND REINVESTMENT</MEMO></INVTRAN><SECID><UNI"); (bs "QUEID>78464A763</UNIQUEID><UNIQUEIDTYPE>CUSIP</UNIQUEIDTYPE></SECID><INCOMETYPE>DIV</INCOMETYPE><TOTAL>4822.357184455312</TOTAL><SUBACCTSEC>CASH</SUBACCTSEC><UNITS>3187.176159151365</UNITS><UNITPRICE>"); (bs "229.30250007374025</UNITPRICE></REINVEST><SELLMF><INVSELL><INVTRAN><FITID>c7c27965-0509-4a2e-80ee-d4fe829f6e03</FITID><DTTRADE>20160607160000.000[-5:EST]</DTTRADE><DTSETTLE>20160607160000.000[-5:EST]<"); (bs "/DTSETTLE><MEMO>MONEY FUND REDEMPTION</MEMO></INVTRAN><SECID><UNIQUEID>FED12Q45Q</UNIQUEID><UNIQUEIDTYPE>CUSIP</UNIQUEIDTYPE></SECID><UNITS>3020.4980179811837</UNITS><UNITPRICE>4057.2553797251203</UNI"); (bs "TPRICE><TOTAL>-602.8925974222395</TOTAL><SUBACCTSEC>CASH</SUBACCTSEC><SUBACCTFUND>CASH</SUBACCTFUND></INVSELL><SELLTYPE>SELL</SELLTYPE></SELLMF><SELLMF><INVSELL><INVTRAN><FITID>d4c6df49-3d9b-43b8-aedd"); (bs "-3caab2aff6ec</FITID><DTTRADE>20160627160000.000[-5:EST]</DTTRADE><DTSETTLE>20160627160000.000[-5:EST]</DTSETTLE><MEMO>MONEY FUND REDEMPTION</MEMO></INVTRAN><SECID><UNIQUEID>FED12Q45Q</UNIQUEID><UNIQU"); (bs "EIDTYPE>CUSIP</UNIQUEIDTYPE></SECID><UNITS>3130.1288139552935</UNITS><UNITPRICE>-1223.5051072925905</UNITPRICE><TOTAL>4764.349342218469</TOTAL><SUBACCTSEC>CASH</SUBACCTSEC><SUBACCTFUND>CASH</SUBACCTFU"); (bs "ND></INVSELL><SELLTYPE>SELL</SELLTYPE></SELLMF><SELLMF><INVSELL><INVTRAN><FITID>ddd1cb7d-0404-4355-a62d-3c8176216955</FITID><DTTRADE>20160711160000.000[-5:EST]</DTTRADE><DTSETTLE>20160711160000.000[-5"); (bs ":EST]</DTSETTLE><MEMO>MONEY FUND REDEMPTION</MEMO></INVTRAN><SECID><UNIQUEID>FED12Q45Q</UNIQUEID><UNIQUEIDTYPE>CUSIP</UNIQUEIDTYPE></SECID><UNITS>3009.691763341514</UNITS><UNITPRICE>1428.7464682968198"); (bs "</UNITPRICE><TOTAL>3738.2011235349337</TOTAL><SUBACCTSEC>CASH</SUBACCTSEC><SUBACCTFUND>CASH</SUBACCTFUND></INVSELL><SELLTYPE>SELL</SELLTYPE></SELLMF><SELLSTOCK><INVSELL><INVTRAN><FITID>c68a0eac-e703-4"); (bs "38a-b47c-42f70382dbeb</FITID><DTTRADE>20160708160000.000[-5:EST]</DTTRADE><DTSETTLE>20160713160000.000[-5:EST]</DTSETTLE><MEMO>SELL</MEMO></INVTRAN><SECID><UNIQUEID>921909768</UNIQUEID><UNIQUEIDTYPE>C"); (bs "USIP</UNIQUEIDTYPE></SECID><UNITS>651.0422700680319</UNITS><UNITPRICE>1494.6765600163667</UNITPRICE><FEES>2026.1394193465926</FEES><TOTAL>1945.5385333219733</TOTAL><SUBACCTSEC>CASH</SUBACCTSEC><SUBACC"); (bs "TFUND>CASH</SUBACCTFUND></INVSELL><SELLTYPE>SELL</SELLTYPE></SELLSTOCK><SELLSTOCK><INVSELL><INVTRAN><FITID>baa02c1e-6301-46ff-ba04-e1151bea8c2e</FITID><DTTRADE>20160620160000.000[-5:EST]</DTTRADE><DTS"); (bs "ETTLE>20160623160000.000[-5:EST]</DTSETTLE><MEMO>SELL</MEMO></INVTRAN><SECID><UNIQUEID>084670702</UNIQUEID><UNIQUEIDTYPE>CUSIP</UNIQUEIDTYPE></SECID><UNITS>-1263.5789517595033</UNITS><UNITPRICE>-1328."); (bs "9207615255718</UNITPRICE><COMMISSION>-599.6197666896526</COMMISSION><FEES>-870.6754395021421</FEES><TOTAL>-464.9649670580118</TOTAL><SUBACCTSEC>CASH</SUBACCTSEC><SUBACCTFUND>CASH</SUBACCTFUND></INVSEL"); (bs "L><SELLTYPE>SELL</SELLTYPE></SELLSTOCK><SELLSTOCK><INVSELL><INVTRAN><FITID>410f4e07-cf3e-46cf-a006-3cb0e0fa6f8a</FITID><DTTRADE>20160624160000.000[-5:EST]</DTTRADE><DTSETTLE>20160629160000.000[-5:EST]"); (bs "</DTSETTLE><MEMO>SELL</MEMO></INVTRAN><SECID><UNIQUEID>049560105</UNIQUEID><UNIQUEIDTYPE>CUSIP</UNIQUEIDTYPE></SECID><UNITS>-1347.1262691325437</UNITS><UNITPRICE>3782.7001510165483</UNITPRICE><COMMISS"); (bs "ION>2306.016528419612</COMMISSION><FEES>1615.2202825935715</FEES><TOTAL>3318.618515196583</TOTAL><SUBACCTSEC>CASH</SUBACCTSEC><SUBACCTFUND>CASH</SUBACCTFUND></INVSELL><SELLTYPE>SELL</SELLTYPE></SELLST"); (bs "OCK><SELLSTOCK><INVSELL><INVTRAN><FITID>b4824f9e-0bbc-4d51-b685-e06677998a90</FITID><DTTRADE>20160620160000.000[-5:EST]</DTTRADE><DTSETTLE>20160623160000.000[-5:EST]</DTSETTLE><MEMO>SELL</MEMO></INVTR"); (bs "AN><SECID><UNIQUEID>78462F103</UNIQUEID><UNIQUEIDTYPE>CUSIP</UNIQUEIDTYPE></SECID><UNITS>3140.745854038385</UNITS><UNITPRICE>3531.648404397405</UNITPRICE><COMMISSION>1906.5936543597913</COMMISSION><FE"); (bs "ES>2449.2303779168496</FEES><TOTAL>687.3186255123292</TOTAL><SUBACCTSEC>CASH</SUBACCTSEC><SUBACCTFUND>CASH</SUBACCTFUND></INVSELL><SELLTYPE>SELL</SELLTYPE></SELLSTOCK><SELLSTOCK><INVSELL><INVTRAN><FIT"); (bs "ID>96b78949-4287-45e7-9fa4-5ab928f1708d</FITID><DTTRADE>20160708160000.000[-5:EST]</DTTRADE><DTSETTLE>20160713160000.000[-5:EST]</DTSETTLE><MEMO>SELL</MEMO></INVTRAN><SECID><UNIQUEID>922908769</UNIQUE"); (bs "ID><UNIQUEIDTYPE>CUSIP</UNIQUEIDTYPE></SECID><UNITS>-572.4558678467724</UNITS><UNITPRICE>860.7465602131565</UNITPRICE><FEES>-1428.278894600494</FEES><TOTAL>4027.049420348547</TOTAL><SUBACCTSEC>CASH</S"); (bs "UBACCTSEC><SUBACCTFUND>CASH</SUBACCTFUND></INVSELL><SELLTYPE>SELL</SELLTYPE></SELLSTOCK><SELLSTOCK><INVSELL><INVTRAN><FITID>19d3b807-2857-4805-9465-d74140a92c49</FITID><DTTRADE>20160620160000.000[-5:E"); (bs "ST]</DTTRADE><DTSETTLE>20160623160000.000[-5:EST]</DTSETTLE><MEMO>SELL</MEMO></INVTRAN><SECID><UNIQUEID>464287655</UNIQUEID><UNIQUEIDTYPE>CUSIP</UNIQUEIDTYPE></SECID><UNITS>3812.8685527163107</UNITS><"); (bs "UNITPRICE>-1887.2736512639467</UNITPRICE><COMMISSION>-1941.1600324868327</COMMISSION><FEES>3342.565983781469</FEES><TOTAL>-152.64856008477113</TOTAL><SUBACCTSEC>CASH</SUBACCTSEC><SUBACCTFUND>CASH</SUB"); (bs "ACCTFUND></INVSELL><SELLTYPE>SELL</SELLTYPE></SELLSTOCK><SELLSTOCK><INVSELL><INVTRAN><FITID>8cb56b3e-cb37-4c1d-9389-45568e4ddc5d</FITID><DTTRADE>20160407160000.000[-5:EST]</DTTRADE><DTSETTLE>201604121"); (bs "60000.000[-5:EST]</DTSETTLE><MEMO>SELL</MEMO></INVTRAN><SECID><UNIQUEID>78464A763</UNIQUEID><UNIQUEIDTYPE>CUSIP</UNIQUEIDTYPE></SECID><UNITS>-767.0641414622553</UNITS><UNITPRICE>1903.954918823295</UNI"); (bs "TPRICE><COMMISSION>2900.987838172772</COMMISSION><FEES>-19.953350790284958</FEES><TOTAL>-1724.3355702286553</TOTAL><SUBACCTSEC>CASH</SUBACCTSEC><SUBACCTFUND>CASH</SUBACCTFUND></INVSELL><SELLTYPE>SELL<"); (bs "/SELLTYPE></SELLSTOCK><TRANSFER><INVTRAN><FITID>272deeb3-b738-43f4-b767-d98b9b95332b</FITID><DTTRADE>20160321160000.000[-5:EST]</DTTRADE><DTSETTLE>20160321160000.000[-5:EST]</DTSETTLE><MEMO>TRANSFER O"); (bs "F ACCOUNTTRANSFER OF ACCOUNT</MEMO></INVTRAN><SECID><UNIQUEID>084670702</UNIQUEID><UNIQUEIDTYPE>CUSIP</UNIQUEIDTYPE></SECID><SUBACCTSEC>CASH</SUBACCTSEC><UNITS>1810.3258411454908</UNITS><TFERACTION>IN"); (bs "</TFERACTION><POSTYPE>LONG</POSTYPE></TRANSFER><TRANSFER><INVTRAN><FITID>5ad31721-4669-4e28-99f5-8c0c709847d3</FITID><DTTRADE>20160321160000.000[-5:EST]</DTTRADE><DTSETTLE>20160321160000.000[-5:EST]</"); (bs "DTSETTLE><MEMO>TRANSFER OF ACCOUNTTRANSFER OF ACCOUNT</MEMO></INVTRAN><SECID><UNIQUEID>049560105</UNIQUEID><UNIQUEIDTYPE>CUSIP</UNIQUEIDTYPE></SECID><SUBACCTSEC>CASH</SUBACCTSEC><UNITS>1792.0252683912"); (bs "558</UNITS><TFERACTION>IN</TFERACTION><POSTYPE>LONG</POSTYPE></TRANSFER><TRANSFER><INVTRAN><FITID>14b2b7cb-52d5-4326-8bae-fa39ef94c1f3</FITID><DTTRADE>20160321160000.000[-5:EST]</DTTRADE><DTSETTLE>201"); (bs "60321160000.000[-5:EST]</DTSETTLE><MEMO>TRANSFER OF ACCOUNTTRANSFER OF ACCOUNT</MEMO></INVTRAN><SECID><UNIQUEID>78462F103</UNIQUEID><UNIQUEIDTYPE>CUSIP</UNIQUEIDTYPE></SECID><SUBACCTSEC>CASH</SUBACCTS"); (bs "EC><UNITS>696.0835085032941</UNITS><TFERACTION>IN</TFERACTION><POSTYPE>LONG</POSTYPE></TRANSFER><TRANSFER><INVTRAN><FITID>ed56c305-3a72-4402-943f-3bed81cf21a7</FITID><DTTRADE>20160321160000.000[-5:EST"); (bs "]</DTTRADE><DTSETTLE>20160321160000.000[-5:EST]</DTSETTLE><MEMO>TRANSFER OF ACCOUNTTRANSFER OF ACCOUNT</MEMO></INVTRAN><SECID><UNIQUEID>464287655</UNIQUEID><UNIQUEIDTYPE>CUSIP</UNIQUEIDTYPE></SECID><S"); (bs "UBACCTSEC>CASH</SUBACCTSEC><UNITS>-1602.927207913195</UNITS><TFERACTION>IN</TFERACTION><POSTYPE>LONG</POSTYPE></TRANSFER><TRANSFER><INVTRAN><FITID>057cf934-14e7-41d5-bbe2-27f980d9f7fa</FITID><DTTRADE>"); (bs "20160321160000.000[-5:EST]</DTTRADE><DTSETTLE>20160321160000.000[-5:EST]</DTSETTLE><MEMO>TRANSFER OF ACCOUNTTRANSFER OF ACCOUNT</MEMO></INVTRAN><SECID><UNIQUEID>78464A763</UNIQUEID><UNIQUEIDTYPE>CUSIP"); (bs "</UNIQUEIDTYPE></SECID><SUBACCTSEC>CASH</SUBACCTSEC><UNITS>2905.7461268824436</UNITS><TFERACTION>IN</TFERACTION><POSTYPE>LONG</POSTYPE></TRANSFER><INVBANKTRAN><STMTTRN><TRNTYPE>OTHER</TRNTYPE><DTPOSTE"); (bs "D>20160321160000.000[-5:EST]</DTPOSTED><TRNAMT>-64.40574934902884</TRNAMT><FITID>248704e4-687d-4062-aa54-f0dd8bb8def4</FITID><NAME>CASH</NAME><MEMO>TRANSFER OF ACCOUNTTRANSFER OF ACCOUNT</MEMO></STMTT"); (bs "RN><SUBACCTFUND>CASH</SUBACCTFUND></INVBANKTRAN><INVBANKTRAN><STMTTRN><TRNTYPE>OTHER</TRNTYPE><DTPOSTED>20160330160000.000[-5:EST]</DTPOSTED><TRNAMT>1712.0554730109434</TRNAMT><FITID>67e92ad1-eb71-4c2"); (bs "0-945d-34fb05c7b57f</FITID><NAME>CASH</NAME><MEMO>TRANSFER OF ACCOUNTTRANSFER OF ACCOUNT</MEMO></STMTTRN><SUBACCTFUND>CASH</SUBACCTFUND></INVBANKTRAN><INVBANKTRAN><STMTTRN><TRNTYPE>OTHER</TRNTYPE><DTP"); (bs "OSTED>20160607160000.000[-5:EST]</DTPOSTED><TRNAMT>-1991.1515760947818</TRNAMT><FITID>7bcae2a6-28c4-46fa-a2df-45d70951de40</FITID></STMTTRN><SUBACCTFUND>CASH</SUBACCTFUND></INVBANKTRAN><INVBANKTRAN><S"); (bs "TMTTRN><TRNTYPE>OTHER</TRNTYPE><DTPOSTED>20170316160000.000[-5:EST]</DTPOSTED><TRNAMT>1610.0655820336997</TRNAMT><FITID>8748c137-21b1-4300-9fd7-4ab435ca0e15</FITID></STMTTRN><SUBACCTFUND>CASH</SUBACCT"); (bs "FUND></INVBANKTRAN></INVTRANLIST><INVPOSLIST><POSSTOCK><INVPOS><SECID><UNIQUEID>049560105</UNIQUEID><UNIQUEIDTYPE>CUSIP</UNIQUEIDTYPE></SECID><HELDINACCT>CASH</HELDINACCT><POSTYPE>LONG</POSTYPE><UNITS"); (bs ">3095.206230511463</UNITS><UNITPRICE>1645.5817152750637</UNITPRICE><MKTVAL>-376.5943957036134</MKTVAL><DTPRICEASOF>20170405160000.000[-5:EST]</DTPRICEASOF><MEMO>Price as of date based on closing price"); (bs "</MEMO></INVPOS><REINVDIV>Y</REINVDIV></POSSTOCK><POSMF><INVPOS><SECID><UNIQUEID>921909602</UNIQUEID><UNIQUEIDTYPE>CUSIP</UNIQUEIDTYPE></SECID><HELDINACCT>CASH</HELDINACCT><POSTYPE>LONG</POSTYPE><UNIT"); (bs "S>642.9018339627378</UNITS><UNITPRICE>1109.3060432427337</UNITPRICE><MKTVAL>1904.5190171996674</MKTVAL><DTPRICEASOF>20170405160000.000[-5:EST]</DTPRICEASOF><MEMO>Price as of date based on closing pric"); (bs "e</MEMO></INVPOS><REINVDIV>Y</REINVDIV><REINVCG>Y</REINVCG></POSMF><POSMF><INVPOS><SECID><UNIQUEID>921937108</UNIQUEID><UNIQUEIDTYPE>CUSIP</UNIQUEIDTYPE></SECID><HELDINACCT>CASH</HELDINACCT><POSTYPE>L"); (bs "ONG</POSTYPE><UNITS>195.51686193193655</UNITS><UNITPRICE>4982.684391844139</UNITPRICE><MKTVAL>-1296.7031927802377</MKTVAL><DTPRICEASOF>20170405160000.000[-5:EST]</DTPRICEASOF><MEMO>Price as of date ba"); (bs "sed on closing price</MEMO></INVPOS><REINVDIV>Y</REINVDIV><REINVCG>Y</REINVCG></POSMF><POSMF><INVPOS><SECID><UNIQUEID>921937835</UNIQUEID><UNIQUEIDTYPE>CUSIP</UNIQUEIDTYPE></SECID><HELDINACCT>CASH</HE"); (bs "LDINACCT><POSTYPE>LONG</POSTYPE><UNITS>544.8705218820041</UNITS><UNITPRICE>-1203.8947910486945</UNITPRICE><MKTVAL>-623.0571816887875</MKTVAL><DTPRICEASOF>20170405160000.000[-5:EST]</DTPRICEASOF><MEMO>"); (bs "Price as of date based on closing price</MEMO></INVPOS><REINVDIV>Y</REINVDIV><REINVCG>N</REINVCG></POSMF><POSMF><INVPOS><SECID><UNIQUEID>922908728</UNIQUEID><UNIQUEIDTYPE>CUSIP</UNIQUEIDTYPE></SECID><"); (bs "HELDINACCT>CASH</HELDINACCT><POSTYPE>LONG</POSTYPE><UNITS>1586.192165445339</UNITS><UNITPRICE>4143.434139828162</UNITPRICE><MKTVAL>2460.9685534384507</MKTVAL><DTPRICEASOF>20170405160000.000[-5:EST]</D"); (bs "TPRICEASOF><MEMO>Price as of date based on closing price</MEMO></INVPOS><REINVDIV>Y</REINVDIV><REINVCG>Y</REINVCG></POSMF><POSMF><INVPOS><SECID><UNIQUEID>922906300</UNIQUEID><UNIQUEIDTYPE>CUSIP</UNIQU"); (bs "EIDTYPE></SECID><HELDINACCT>CASH</HELDINACCT><POSTYPE>LONG</POSTYPE><UNITS>80.78210736327719</UNITS><UNITPRICE>-1355.2464236252567</UNITPRICE><MKTVAL>3770.7899180836966</MKTVAL><DTPRICEASOF>2017040516"); (bs "0000.000[-5:EST]</DTPRICEASOF><MEMO>Price as of date based on closing price</MEMO></INVPOS><REINVDIV>N</REINVDIV><REINVCG>N</REINVCG></POSMF></INVPOSLIST><INVBAL><AVAILCASH>-1525.5718103575014</AVAILC"); (bs "ASH><MARGINBALANCE>-136.37998298712773</MARGINBALANCE><SHORTBALANCE>4487.050086486819</SHORTBALANCE></INVBAL></INVSTMTRS></INVSTMTTRNRS></INVSTMTMSGSRSV1><SECLISTMSGSRSV1><SECLIST><STOCKINFO><SECINFO>"); (bs "<SECID><UNIQUEID>049560105</UNIQUEID><UNIQUEIDTYPE>CUSIP</UNIQUEIDTYPE></SECID><SECNAME>ATMOS ENERGY CORP</SECNAME><TICKER>ATO</TICKER><UNITPRICE>44.124154010998836</UNITPRICE><MEMO>Price as of date b"); (bs "ased on closing price</MEMO></SECINFO><STOCKTYPE>COMMON</STOCKTYPE><YIELD>-1942.3433104810056</YIELD></STOCKINFO><STOCKINFO><SECINFO><SECID><UNIQUEID>921909768</UNIQUEID><UNIQUEIDTYPE>CUSIP</UNIQUEIDT"); (bs "YPE></SECID><SECNAME>VANGUARD TOTAL INTL STOCK INDE</SECNAME><TICKER>921909768</TICKER><MEMO>BUY</MEMO></SECINFO></STOCKINFO><STOCKINFO><SECINFO><SECID><UNIQUEID>084670702</UNIQUEID><UNIQUEIDTYPE>CUSI"); (bs "P</UNIQUEIDTYPE></SECID><SECNAME>BERKSHIRE HATHAWAY INC DE CL B</SECNAME><TICKER>084670702</TICKER><MEMO>TRANSFER OF ACCOUNT</MEMO></SECINFO></STOCKINFO><STOCKINFO><SECINFO><SECID><UNIQUEID>78462F103<"); (bs "/UNIQUEID><UNIQUEIDTYPE>CUSIP</UNIQUEIDTYPE></SECID><SECNAME>20SPDR SP 500 ETF</SECNAME><TICKER>78462F103</TICKER><MEMO>TRANSFER OF ACCOUNT</MEMO></SECINFO></STOCKINFO><STOCKINFO><SECINFO><SECID><UNIQ"); (bs "UEID>922908769</UNIQUEID><UNIQUEIDTYPE>CUSIP</UNIQUEIDTYPE></SECID><SECNAME>VANGUARD TOTAL STOCK MARKET ETF</SECNAME><TICKER>922908769</TICKER><MEMO>BUY</MEMO></SECINFO></STOCKINFO><STOCKINFO><SECINFO"); (bs "><SECID><UNIQUEID>464287655</UNIQUEID><UNIQUEIDTYPE>CUSIP</UNIQUEIDTYPE></SECID><SECNAME>ISHARES RUSSELL 2000 ETF</SECNAME><TICKER>464287655</TICKER><MEMO>TRANSFER OF ACCOUNT</MEMO></SECINFO></STOCKIN"); (bs "FO><STOCKINFO><SECINFO><SECID><UNIQUEID>78464A763</UNIQUEID><UNIQUEIDTYPE>CUSIP</UNIQUEIDTYPE></SECID><SECNAME>20SPDR SERIES TRUST SP DIVIDEND</SECNAME><TICKER>78464A763</TICKER><MEMO>TRANSFER OF ACCO"); (bs "UNT</MEMO></SECINFO></STOCKINFO><MFINFO><SECINFO><SECID><UNIQUEID>921909602</UNIQUEID><UNIQUEIDTYPE>CUSIP</UNIQUEIDTYPE></SECID><SECNAME>Vanguard Total International Stock Index Fund Investor Shares</"); (bs "SECNAME><TICKER>VGTSX</TICKER><UNITPRICE>-970.1670162560076</UNITPRICE><MEMO>Price as of date based on closing price</MEMO></SECINFO><MFTYPE>OPENEND</MFTYPE></MFINFO><MFINFO><SECINFO><SECID><UNIQUEID>"); (bs "921937108</UNIQUEID><UNIQUEIDTYPE>CUSIP</UNIQUEIDTYPE></SECID><SECNAME>Vanguard Total Bond Market Index Fund Investor Shares</SECNAME><TICKER>VBMFX</TICKER><UNITPRICE>-687.4978500583932</UNITPRICE><ME"); (bs "MO>Price as of date based on closing price</MEMO></SECINFO><MFTYPE>OPENEND</MFTYPE></MFINFO><MFINFO><SECINFO><SECID><UNIQUEID>921937835</UNIQUEID><UNIQUEIDTYPE>CUSIP</UNIQUEIDTYPE></SECID><SECNAME>VAN"); (bs "GUARD TOTAL BOND MARKET ETF</SECNAME><TICKER>BND</TICKER><UNITPRICE>4236.284682348263</UNITPRICE><MEMO>Price as of date based on closing price</MEMO></SECINFO><MFTYPE>OPENEND</MFTYPE></MFINFO><MFINFO>"); (bs "<SECINFO><SECID><UNIQUEID>922908728</UNIQUEID><UNIQUEIDTYPE>CUSIP</UNIQUEIDTYPE></SECID><SECNAME>Vanguard Total Stock Market Index Fund Admiral Shares</SECNAME><TICKER>VTSAX</TICKER><UNITPRICE>-1555.4"); (bs "850628829035</UNITPRICE><MEMO>Price as of date based on closing price</MEMO></SECINFO><MFTYPE>OPENEND</MFTYPE></MFINFO><MFINFO><SECINFO><SECID><UNIQUEID>922906300</UNIQUEID><UNIQUEIDTYPE>CUSIP</UNIQUE"); (bs "IDTYPE></SECID><SECNAME>Vanguard Federal Money Market Fund</SECNAME><TICKER>VMFXX</TICKER><UNITPRICE>2587.989630805755</UNITPRICE><MEMO>Price as of date based on closing price</MEMO></SECINFO><MFTYPE>"); (bs "OPENEND</MFTYPE></MFINFO><MFINFO><SECINFO><SECID><UNIQUEID>FED12Q45Q</UNIQUEID><UNIQUEIDTYPE>CUSIP</UNIQUEIDTYPE></SECID><SECNAME>VANGUARD FEDERAL MONEY MARKET</SECNAME><TICKER>FED12Q45Q</TICKER><MEMO"); (bs ">MONEY FUND PURCHASE</MEMO></SECINFO><MFTYPE>OPENEND</MFTYPE></MFINFO></SECLIST></SECLISTMSGSRSV1></OFX>")])]).
Definition sample_inv_v202_check : Prop :=
  match parse_response sample_env sample_inv_v202 with
  | (Some r, None) => round_trips r
  | _ => False
  end.
Example sample_inv_v202_ok : sample_inv_v202_check.
Proof. vm_compute. reflexivity. Qed.

(** samples/valid_responses/ira_v202.ofx, TestValidSamples, response_test.go:155-177. *)
Definition sample_ira_v202 : str := (doc [(concat [(bs "<?xml version=""1.0"" encoding=""utf-8"" ?><?OFX OFXHEADER=""200"" VERSION=""202"" SECURITY=""NONE"" OLDFILEUID=""NONE"" NEWFILEUID=""NONE""?><OFX><SIGNONMSGSRSV1><SONRS><STATUS><CODE>0</CODE><SEVERITY>INFO</SEVERI"); (bs "TY><MESSAGE>Successful Sign On</MESSAGE></STATUS><DTSERVER>20170406192636[-5:EST]</DTSERVER><LANGUAGE>ENG</LANGUAGE><DTPROFUP>20140605083000</DTPROFUP><FI><ORG>OAHGK</ORG><FID>3418</FID></FI><SESSCOOK"); (bs "IE>J3stupv8Hc1_S5omeZDXUhGx4P7QiAqdIlEg</SESSCOOKIE></SONRS></SIGNONMSGSRSV1><INVSTMTMSGSRSV1><INVSTMTTRNRS><TRNUID>eaa98f87-e8f9-43e8-bacf-34d171f25fc9</TRNUID><STATUS><CODE>0</CODE><SEVERITY>INFO</S"); (bs "EVERITY></STATUS><INVSTMTRS><DTASOF>20170406160000.000[-5:EST]</DTASOF><CURDEF>USD</CURDEF><INVACCTFROM><BROKERID>fi.example.com</BROKERID><ACCTID>38140787919</ACCTID></INVACCTFROM><INVTRANLIST><DTSTA"); (bs "RT>20151006160000.000[-5:EST]160000.000[-5:EST]</DTSTART><DTEND>20170406192636.000[-5:EST]</DTEND><BUYMF><INVBUY><INVTRAN><FITID>73ef3a78-8826-4255-ad94-5fd3d02d0ee5</FITID><DTTRADE>20160216160000.000"); (bs "[-5:EST]</DTTRADE><DTSETTLE>20160216160000.000[-5:EST]</DTSETTLE><MEMO>MONEY FUND PURCHASE</MEMO></INVTRAN><SECID><UNIQUEID>922906201</UNIQUEID><UNIQUEIDTYPE>CUSIP</UNIQUEIDTYPE></SECID><UNITS>19.2782"); (bs "17566280546</UNITS><UNITPRICE>-1525.4663711937778</UNITPRICE><TOTAL>4363.22682198809</TOTAL><SUBACCTSEC>CASH</SUBACCTSEC><SUBACCTFUND>CASH</SUBACCTFUND></INVBUY><BUYTYPE>BUY</BUYTYPE></BUYMF><BUYMF><I"); (bs "NVBUY><INVTRAN><FITID>59febec8-0659-4485-ae49-ba7c96700a7a</FITID><DTTRADE>20160623160000.000[-5:EST]</DTTRADE><DTSETTLE>20160623160000.000[-5:EST]</DTSETTLE><MEMO>MONEY FUND PURCHASE</MEMO></INVTRAN>"); (bs "<SECID><UNIQUEID>922906201</UNIQUEID><UNIQUEIDTYPE>CUSIP</UNIQUEIDTYPE></SECID><UNITS>4647.861405961569</UNITS><UNITPRICE>2278.367694616166</UNITPRICE><TOTAL>2469.6389083029935</TOTAL><SUBACCTSEC>CASH"); (bs "</SUBACCTSEC><SUBACCTFUND>CASH</SUBACCTFUND></INVBUY><BUYTYPE>BUY</BUYTYPE></BUYMF><BUYMF><INVBUY><INVTRAN><FITID>22bf0c32-1b0e-40d4-9ca6-ad09e1334f8c</FITID><DTTRADE>20160919160000.000[-5:EST]</DTTRA"); (bs "DE><DTSETTLE>20160919160000.000[-5:EST]</DTSETTLE><MEMO>MONEY FUND PURCHASE</MEMO></INVTRAN><SECID><UNIQUEID>FED12Q45Q</UNIQUEID><UNIQUEIDTYPE>CUSIP</UNIQUEIDTYPE></SECID><UNITS>1631.6699159955547</UN"); (bs "ITS><UNITPRICE>1634.4064644381651</UNITPRICE><TOTAL>1449.4689262297838</TOTAL><SUBACCTSEC>CASH</SUBACCTSEC><SUBACCTFUND>CASH</SUBACCTFUND></INVBUY><BUYTYPE>BUY</BUYTYPE></BUYMF><BUYMF><INVBUY><INVTRAN"); (bs "><FITID>85cccd7d-a1d2-42c5-9a56-303d32bfb4c0</FITID><DTTRADE>20160920160000.000[-5:EST]</DTTRADE><DTSETTLE>20160920160000.000[-5:EST]</DTSETTLE><MEMO>MONEY FUND PURCHASE</MEMO></INVTRAN><SECID><UNIQUE"); (bs "ID>FED12Q45Q</UNIQUEID><UNIQUEIDTYPE>CUSIP</UNIQUEIDTYPE></SECID><UNITS>-1170.5911481582543</UNITS><UNITPRICE>4914.434618559914</UNITPRICE><TOTAL>623.239143201663</TOTAL><SUBACCTSEC>CASH</SUBACCTSEC><"); (bs "SUBACCTFUND>CASH</SUBACCTFUND></INVBUY><BUYTYPE>BUY</BUYTYPE></BUYMF><BUYMF><INVBUY><INVTRAN><FITID>1266686a-3499-479f-840b-c83046d1cbb4</FITID><DTTRADE>20160915160000.000[-5:EST]</DTTRADE><DTSETTLE>2"); (bs "0160916160000.000[-5:EST]</DTSETTLE><MEMO>BUY</MEMO></INVTRAN><SECID><UNIQUEID>922906201</UNIQUEID><UNIQUEIDTYPE>CUSIP</UNIQUEIDTYPE></SECID><UNITS>1879.6402178171297</UNITS><UNITPRICE>-1749.226952443"); (bs "1063</UNITPRICE><TOTAL>1673.3291030640453</TOTAL><SUBACCTSEC>CASH</SUBACCTSEC><SUBACCTFUND>CASH</SUBACCTFUND></INVBUY><BUYTYPE>BUY</BUYTYPE></BUYMF><BUYMF><INVBUY><INVTRAN><FITID>2246810d-61ef-48eb-92"); (bs "da-9daab8a67304</FITID><DTTRADE>20160211160000.000[-5:EST]</DTTRADE><DTSETTLE>20160212160000.000[-5:EST]</DTSETTLE><MEMO>BUY</MEMO></INVTRAN><SECID><UNIQUEID>922908728</UNIQUEID><UNIQUEIDTYPE>CUSIP</U"); (bs "NIQUEIDTYPE></SECID><UNITS>3671.138197686205</UNITS><UNITPRICE>-845.2352332259197</UNITPRICE><TOTAL>271.334148396772</TOTAL><SUBACCTSEC>CASH</SUBACCTSEC><SUBACCTFUND>CASH</SUBACCTFUND></INVBUY><BUYTYP"); (bs "E>BUY</BUYTYPE></BUYMF><BUYSTOCK><INVBUY><INVTRAN><FITID>c337e361-1814-4f5f-adb6-cfb7c4fa9726</FITID><DTTRADE>20160304160000.000[-5:EST]</DTTRADE><DTSETTLE>20160309160000.000[-5:EST]</DTSETTLE><MEMO>B"); (bs "UY</MEMO></INVTRAN><SECID><UNIQUEID>921909768</UNIQUEID><UNIQUEIDTYPE>CUSIP</UNIQUEIDTYPE></SECID><UNITS>429.2321735536443</UNITS><UNITPRICE>-877.5569867259219</UNITPRICE><TOTAL>-114.01187925332829</T"); (bs "OTAL><SUBACCTSEC>CASH</SUBACCTSEC><SUBACCTFUND>CASH</SUBACCTFUND></INVBUY><BUYTYPE>BUY</BUYTYPE></BUYSTOCK><BUYSTOCK><INVBUY><INVTRAN><FITID>36e24251-84ac-4417-af61-d5d744e7abf0</FITID><DTTRADE>201606"); (bs "20160000.000[-5:EST]</DTTRADE><DTSETTLE>20160623160000.000[-5:EST]</DTSETTLE><MEMO>BUY</MEMO></INVTRAN><SECID><UNIQUEID>921909768</UNIQUEID><UNIQUEIDTYPE>CUSIP</UNIQUEIDTYPE></SECID><UNITS>1826.598891"); (bs "9707065</UNITS><UNITPRICE>4168.070526154769</UNITPRICE><TOTAL>215.5740907298882</TOTAL><SUBACCTSEC>CASH</SUBACCTSEC><SUBACCTFUND>CASH</SUBACCTFUND></INVBUY><BUYTYPE>BUY</BUYTYPE></BUYSTOCK><INCOME><IN"); (bs "VTRAN><FITID>7af54cfd-9c78-4a76-b22d-2033224da06f</FITID><DTTRADE>20160916160000.000[-5:EST]</DTTRADE><DTSETTLE>20160916160000.000[-5:EST]</DTSETTLE><MEMO>DIVIDEND PAYMENTDIVIDEND PAYMENT</MEMO></INVT"); (bs "RAN><SECID><UNIQUEID>922906201</UNIQUEID><UNIQUEIDTYPE>CUSIP</UNIQUEIDTYPE></SECID><INCOMETYPE>DIV</INCOMETYPE><TOTAL>4761.745483958354</TOTAL><SUBACCTSEC>CASH</SUBACCTSEC><SUBACCTFUND>CASH</SUBACCTFU"); (bs "ND></INCOME><REINVEST><INVTRAN><FITID>d453519b-1c71-4e15-9809-89f42f5cb628</FITID><DTTRADE>20160229160000.000[-5:EST]</DTTRADE><DTSETTLE>20160229160000.000[-5:EST]</DTSETTLE><MEMO>DIVIDEND REINVESTMEN"); (bs "TDIVIDEND REINVESTMENT</MEMO></INVTRAN><SECID><UNIQUEID>922906201</UNIQUEID><UNIQUEIDTYPE>CUSIP</UNIQUEIDTYPE></SECID><INCOMETYPE>DIV</INCOMETYPE><TOTAL>2231.878532889339</TOTAL><SUBACCTSEC>CASH</SUBA"); (bs "CCTSEC><UNITS>4449.730443820237</UNITS><UNITPRICE>3969.3791558741023</UNITPRICE></REINVEST><REINVEST><INVTRAN><FITID>5f08d9e2-d001-4921-9449-4132e8e13ec0</FITID><DTTRADE>20160331160000.000[-5:EST]</DT"); (bs "TRADE><DTSETTLE>20160331160000.000[-5:EST]</DTSETTLE><MEMO>DIVIDEND REINVESTMENTDIVIDEND REINVESTMENT</MEMO></INVTRAN><SECID><UNIQUEID>922906201</UNIQUEID><UNIQUEIDTYPE>CUSIP</UNIQUEIDTYPE></SECID><IN"); (bs "COMETYPE>DIV</INCOMETYPE><TOTAL>-410.30842159812414</TOTAL><SUBACCTSEC>CASH</SUBACCTSEC><UNITS>-1959.5556604318092</UNITS><UNITPRICE>-219.51461198200673</UNITPRICE></REINVEST><REINVEST><INVTRAN><FITID"); (bs ">ce0d9325-fbb4-44bf-bff7-dcacc53b3e99</FITID><DTTRADE>20160429160000.000[-5:EST]</DTTRADE><DTSETTLE>20160429160000.000[-5:EST]</DTSETTLE><MEMO>DIVIDEND REINVESTMENTDIVIDEND REINVESTMENT</MEMO></INVTRA"); (bs "N><SECID><UNIQUEID>922906201</UNIQUEID><UNIQUEIDTYPE>CUSIP</UNIQUEIDTYPE></SECID><INCOMETYPE>DIV</INCOMETYPE><TOTAL>-1486.5386646073728</TOTAL><SUBACCTSEC>CASH</SUBACCTSEC><UNITS>3773.739320660916</UN"); (bs "ITS><UNITPRICE>-1746.9027368524678</UNITPRICE></REINVEST><REINVEST><INVTRAN><FITID>3a727ea0-122b-4cb4-97ab-2576d23e700c</FITID><DTTRADE>20160531160000.000[-5:EST]</DTTRADE><DTSETTLE>20160531160000.000"); (bs "[-5:EST]</DTSETTLE><MEMO>DIVIDEND REINVESTMENTDIVIDEND REINVESTMENT</MEMO></INVTRAN><SECID><UNIQUEID>922906201</UNIQUEID><UNIQUEIDTYPE>CUSIP</UNIQUEIDTYPE></SECID><INCOMETYPE>DIV</INCOMETYPE><TOTAL>25"); (bs "34.453837971075</TOTAL><SUBACCTSEC>CASH</SUBACCTSEC><UNITS>-393.44253321583165</UNITS><UNITPRICE>252.97625493777514</UNITPRICE></REINVEST><REINVEST><INVTRAN><FITID>ddba8b2d-ddde-48c8-ba29-a235a93057fc"); (bs "</FITID><DTTRADE>20160630160000.000[-5:EST]</DTTRADE><DTSETTLE>20160630160000.000[-5:EST]</DTSETTLE><MEMO>DIVIDEND REINVESTMENTDIVIDEND REINVESTMENT</MEMO></INVTRAN><SECID><UNIQUEID>922906201</UNIQUEI"); (bs "D><UNIQUEIDTYPE>CUSIP</UNIQUEIDTYPE></SECID><INCOMETYPE>DIV</INCOMETYPE><TOTAL>376.163078287369</TOTAL><SUBACCTSEC>CASH</SUBACCTSEC><UNITS>1556.854252531913</UNITS><UNITPRICE>4125.271895070654</UNITPR"); (bs "ICE></REINVEST><REINVEST><INVTRAN><FITID>0700e49f-7ba5-4b3a-a691-7c6d13a092eb</FITID><DTTRADE>20160729160000.000[-5:EST]</DTTRADE><DTSETTLE>20160729160000.000[-5:EST]</DTSETTLE><MEMO>DIVIDEND REINVEST"); (bs "MENTDIVIDEND REINVESTMENT</MEMO></INVTRAN><SECID><UNIQUEID>922906201</UNIQUEID><UNIQUEIDTYPE>CUSIP</UNIQUEIDTYPE></SECID><INCOMETYPE>DIV</INCOMETYPE><TOTAL>3989.128366075679</TOTAL><SUBACCTSEC>CASH</S"); (bs "UBACCTSEC><UNITS>4865.942955331687</UNITS><UNITPRICE>2917.8660022095837</UNITPRICE></REINVEST><REINVEST><INVTRAN><FITID>c59073eb-b79a-4e5f-9431-ecc8a55f22c6</FITID><DTTRADE>20160831160000.000[-5:EST]<"); (bs "/DTTRADE><DTSETTLE>20160831160000.000[-5:EST]</DTSETTLE><MEMO>DIVIDEND REINVESTMENTDIVIDEND REINVESTMENT</MEMO></INVTRAN><SECID><UNIQUEID>922906201</UNIQUEID><UNIQUEIDTYPE>CUSIP</UNIQUEIDTYPE></SECID>"); (bs "<INCOMETYPE>DIV</INCOMETYPE><TOTAL>4078.3093503085493</TOTAL><SUBACCTSEC>CASH</SUBACCTSEC><UNITS>-496.18434078439077</UNITS><UNITPRICE>2753.140482911571</UNITPRICE></REINVEST><REINVEST><INVTRAN><FITID"); (bs ">17c5fe14-84a3-4a73-af59-bf30b548cb6a</FITID><DTTRADE>20160321160000.000[-5:EST]</DTTRADE><DTSETTLE>20160321160000.000[-5:EST]</DTSETTLE><MEMO>DIVIDEND REINVESTMENTDIVIDEND REINVESTMENT</MEMO></INVTRA"); (bs "N><SECID><UNIQUEID>921909768</UNIQUEID><UNIQUEIDTYPE>CUSIP</UNIQUEIDTYPE></SECID><INCOMETYPE>DIV</INCOMETYPE><TOTAL>-1221.9538935107803</TOTAL><SUBACCTSEC>CASH</SUBACCTSEC><UNITS>4746.528489740064</UN"); (bs "ITS><UNITPRICE>959.2180222934749</UNITPRICE></REINVEST><REINVEST><INVTRAN><FITID>ad51c9bd-8f75-43e5-840f-a70cd26a24dd</FITID><DTTRADE>20160620160000.000[-5:EST]</DTTRADE><DTSETTLE>20160620160000.000[-"); (bs "5:EST]</DTSETTLE><MEMO>DIVIDEND REINVESTMENTDIVIDEND REINVESTMENT</MEMO></INVTRAN><SECID><UNIQUEID>921909768</UNIQUEID><UNIQUEIDTYPE>CUSIP</UNIQUEIDTYPE></SECID><INCOMETYPE>DIV</INCOMETYPE><TOTAL>-185"); (bs "7.2140850765047</TOTAL><SUBACCTSEC>CASH</SUBACCTSEC><UNITS>3806.262793072783</UNITS><UNITPRICE>3235.6283373172528</UNITPRICE></REINVEST><REINVEST><INVTRAN><FITID>136b035b-f86b-4675-9c6b-4ae0d94a0e0e</"); (bs "FITID><DTTRADE>20160919160000.000[-5:EST]</DTTRADE><DTSETTLE>20160919160000.000[-5:EST]</DTSETTLE><MEMO>DIVIDEND REINVESTMENTDIVIDEND REINVESTMENT</MEMO></INVTRAN><SECID><UNIQUEID>921909768</UNIQUEID>"); (bs "<UNIQUEIDTYPE>CUSIP</UNIQUEIDTYPE></SECID><INCOMETYPE>DIV</INCOMETYPE><TOTAL>3312.468204221862</TOTAL><SUBACCTSEC>CASH</SUBACCTSEC><UNITS>2275.7272987234383</UNITS><UNITPRICE>2929.3284555223727</UNITP"); (bs "RICE></REINVEST><REINVEST><INVTRAN><FITID>688dc78f-fd4d-4e32-b2b8-0f617c586dd5</FITID><DTTRADE>20161227160000.000[-5:EST]</DTTRADE><DTSETTLE>20161227160000.000[-5:EST]</DTSETTLE><MEMO>DIVIDEND REINVES"); (bs "TMENTDIVIDEND REINVESTMENT</MEMO></INVTRAN><SECID><UNIQUEID>921909768</UNIQUEID><UNIQUEIDTYPE>CUSIP</UNIQUEIDTYPE></SECID><INCOMETYPE>DIV</INCOMETYPE><TOTAL>3035.100981165604</TOTAL><SUBACCTSEC>CASH</"); (bs "SUBACCTSEC><UNITS>2419.275917573039</UNITS><UNITPRICE>-1467.6568132937696</UNITPRICE></REINVEST><REINVEST><INVTRAN><FITID>a3741898-1c78-4ef0-af4a-6b8257d621d9</FITID><DTTRADE>20170330160000.000[-5:EST"); (bs "]</DTTRADE><DTSETTLE>20170330160000.000[-5:EST]</DTSETTLE><MEMO>DIVIDEND REINVESTMENTDIVIDEND REINVESTMENT</MEMO></INVTRAN><SECID><UNIQUEID>921909768</UNIQUEID><UNIQUEIDTYPE>CUSIP</UNIQUEIDTYPE></SECI"); (bs "D><INCOMETYPE>DIV</INCOMETYPE><TOTAL>2551.8931819614763</TOTAL><SUBACCTSEC>CASH</SUBACCTSEC><UNITS>302.28999602868134</UNITS><UNITPRICE>-879.0269579585956</UNITPRICE></REINVEST><REINVEST><INVTRAN><FIT"); (bs "ID>cb9d79b9-95bd-48fc-96f8-994a53629a2b</FITID><DTTRADE>20161031160000.000[-5:EST]</DTTRADE><DTSETTLE>20161031160000.000[-5:EST]</DTSETTLE><MEMO>DIVIDEND REINVESTMENTDIVIDEND REINVESTMENT</MEMO></INVT"); (bs "RAN><SECID><UNIQUEID>FED12Q45Q</UNIQUEID><UNIQUEIDTYPE>CUSIP</UNIQUEIDTYPE></SECID><INCOMETYPE>DIV</INCOMETYPE><TOTAL>1148.6433443100404</TOTAL><SUBACCTSEC>CASH</SUBACCTSEC><UNITS>4252.104493615425</U"); (bs "NITS><UNITPRICE>3234.07741416937</UNITPRICE></REINVEST><REINVEST><INVTRAN><FITID>e051e4ec-8270-4ca6-93c3-04c27b922a24</FITID><DTTRADE>20161130160000.000[-5:EST]</DTTRADE><DTSETTLE>20161130160000.000[-"); (bs "5:EST]</DTSETTLE><MEMO>DIVIDEND REINVESTMENTDIVIDEND REINVESTMENT</MEMO></INVTRAN><SECID><UNIQUEID>FED12Q45Q</UNIQUEID><UNIQUEIDTYPE>CUSIP</UNIQUEIDTYPE></SECID><INCOMETYPE>DIV</INCOMETYPE><TOTAL>2508"); (bs ".700799816961</TOTAL><SUBACCTSEC>CASH</SUBACCTSEC><UNITS>2766.5990846524974</UNITS><UNITPRICE>3605.4590902283144</UNITPRICE></REINVEST><REINVEST><INVTRAN><FITID>015a3fd7-e0e7-435d-b855-34ab8a227e1e</F"); (bs "ITID><DTTRADE>20161230160000.000[-5:EST]</DTTRADE><DTSETTLE>20161230160000.000[-5:EST]</DTSETTLE><MEMO>DIVIDEND REINVESTMENTDIVIDEND REINVESTMENT</MEMO></INVTRAN><SECID><UNIQUEID>FED12Q45Q</UNIQUEID><"); (bs "UNIQUEIDTYPE>CUSIP</UNIQUEIDTYPE></SECID><INCOMETYPE>DIV</INCOMETYPE><TOTAL>483.7378756418202</TOTAL><SUBACCTSEC>CASH</SUBACCTSEC><UNITS>3472.482451765719</UNITS><UNITPRICE>590.1028901047425</UNITPRIC"); (bs "E></REINVEST><REINVEST><INVTRAN><FITID>38a4ec6a-38e1-4212-b8e6-3bb8c8178e9e</FITID><DTTRADE>20170131160000.000[-5:EST]</DTTRADE><DTSETTLE>20170131160000.000[-5:EST]</DTSETTLE><MEMO>DIVIDEND REINVESTME"); (bs "NTDIVIDEND REINVESTMENT</MEMO></INVTRAN><SECID><UNIQUEID>FED12Q45Q</UNIQUEID><UNIQUEIDTYPE>CUSIP</UNIQUEIDTYPE></SECID><INCOMETYPE>DIV</INCOMETYPE><TOTAL>4427.3291160400495</TOTAL><SUBACCTSEC>CASH</SU"); (bs "BACCTSEC><UNITS>14.790104918561838</UNITS><UNITPRICE>-442.8826055075442</UNITPRICE></REINVEST><REINVEST><INVTRAN><FITID>b49f4795-5d30-4e1c-af65-6cfe40ae5493</FITID><DTTRADE>20170228160000.000[-5:EST]<"); (bs "/DTTRADE><DTSETTLE>20170228160000.000[-5:EST]</DTSETTLE><MEMO>DIVIDEND REINVESTMENTDIVIDEND REINVESTMENT</MEMO></INVTRAN><SECID><UNIQUEID>FED12Q45Q</UNIQUEID><UNIQUEIDTYPE>CUSIP</UNIQUEIDTYPE></SECID>"); (bs "<INCOMETYPE>DIV</INCOMETYPE><TOTAL>3029.2980480118968</TOTAL><SUBACCTSEC>CASH</SUBACCTSEC><UNITS>2856.74575019062</UNITS><UNITPRICE>3809.4489376295987</UNITPRICE></REINVEST><REINVEST><INVTRAN><FITID>2"); (bs "70a9dc3-48e2-4a9f-a930-cd29e32b0d00</FITID><DTTRADE>20170331160000.000[-5:EST]</DTTRADE><DTSETTLE>20170331160000.000[-5:EST]</DTSETTLE><MEMO>DIVIDEND REINVESTMENTDIVIDEND REINVESTMENT</MEMO></INVTRAN>"); (bs "<SECID><UNIQUEID>FED12Q45Q</UNIQUEID><UNIQUEIDTYPE>CUSIP</UNIQUEIDTYPE></SECID><INCOMETYPE>DIV</INCOMETYPE><TOTAL>2645.102484563339</TOTAL><SUBACCTSEC>CASH</SUBACCTSEC><UNITS>-1673.3475119684217</UNIT"); (bs "S><UNITPRICE>4523.535003881921</UNITPRICE></REINVEST><REINVEST><INVTRAN><FITID>d79e8743-7954-4cab-a528-a8e06d3a0dd5</FITID><DTTRADE>20160314160000.000[-5:EST]</DTTRADE><DTSETTLE>20160314160000.000[-5:"); (bs "EST]</DTSETTLE><MEMO>DIVIDEND REINVESTMENTDIVIDEND REINVESTMENT</MEMO></INVTRAN><SECID><UNIQUEID>922908728</UNIQUEID><UNIQUEIDTYPE>CUSIP</UNIQUEIDTYPE></SECID><INCOMETYPE>DIV</INCOMETYPE><TOTAL>282.46"); (bs "16376483614</TOTAL><SUBACCTSEC>CASH</SUBACCTSEC><UNITS>4587.877478132082</UNITS><UNITPRICE>98.54334236670365</UNITPRICE></REINVEST><REINVEST><INVTRAN><FITID>863cac2d-7fd2-4315-8a39-2f1254f796a3</FITID"); (bs "><DTTRADE>20160613160000.000[-5:EST]</DTTRADE><DTSETTLE>20160613160000.000[-5:EST]</DTSETTLE><MEMO>DIVIDEND REINVESTMENTDIVIDEND REINVESTMENT</MEMO></INVTRAN><SECID><UNIQUEID>922908728</UNIQUEID><UNIQ"); (bs "UEIDTYPE>CUSIP</UNIQUEIDTYPE></SECID><INCOMETYPE>DIV</INCOMETYPE><TOTAL>916.914663767484</TOTAL><SUBACCTSEC>CASH</SUBACCTSEC><UNITS>-14.35876384698281</UNITS><UNITPRICE>1571.9396824755122</UNITPRICE><"); (bs "/REINVEST><REINVEST><INVTRAN><FITID>1fe41d06-0f89-40f0-b12d-311ded76d45f</FITID><DTTRADE>20160912160000.000[-5:EST]</DTTRADE><DTSETTLE>20160912160000.000[-5:EST]</DTSETTLE><MEMO>DIVIDEND REINVESTMENTD"); (bs "IVIDEND REINVESTMENT</MEMO></INVTRAN><SECID><UNIQUEID>922908728</UNIQUEID><UNIQUEIDTYPE>CUSIP</UNIQUEIDTYPE></SECID><INCOMETYPE>DIV</INCOMETYPE><TOTAL>3431.2319557327646</TOTAL><SUBACCTSEC>CASH</SUBAC"); (bs "CTSEC><UNITS>37.20842508401711</UNITS><UNITPRICE>3414.1136928125725</UNITPRICE></REINVEST><REINVEST><INVTRAN><FITID>ea033881-5ac6-4f95-8fe7-2c6c1a7d41f6</FITID><DTTRADE>20161219160000.000[-5:EST]</DTT"); (bs "RADE><DTSETTLE>20161219160000.000[-5:EST]</DTSETTLE><MEMO>DIVIDEND REINVESTMENTDIVIDEND REINVESTMENT</MEMO></INVTRAN><SECID><UNIQUEID>922908728</UNIQUEID><UNIQUEIDTYPE>CUSIP</UNIQUEIDTYPE></SECID><INC"); (bs "OMETYPE>DIV</INCOMETYPE><TOTAL>-431.16553302783905</TOTAL><SUBACCTSEC>CASH</SUBACCTSEC><UNITS>-1160.4641462740697</UNITS><UNITPRICE>-1577.1193468728723</UNITPRICE></REINVEST><REINVEST><INVTRAN><FITID>"); (bs "1b435119-4e87-4d97-bd5f-e44340d9389f</FITID><DTTRADE>20170323160000.000[-5:EST]</DTTRADE><DTSETTLE>20170323160000.000[-5:EST]</DTSETTLE><MEMO>DIVIDEND REINVESTMENTDIVIDEND REINVESTMENT</MEMO></INVTRAN"); (bs "><SECID><UNIQUEID>922908728</UNIQUEID><UNIQUEIDTYPE>CUSIP</UNIQUEIDTYPE></SECID><INCOMETYPE>DIV</INCOMETYPE><TOTAL>-1161.8607928529427</TOTAL><SUBACCTSEC>CASH</SUBACCTSEC><UNITS>3671.400688821197</UNI"); (bs "TS><UNITPRICE>1422.2445464358248</UNITPRICE></REINVEST><REINVEST><INVTRAN><FITID>4f4ba849-7194-402f-8c92-8b7618159954</FITID><DTTRADE>20160205160000.000[-5:EST]</DTTRADE><DTSETTLE>20160205160000.000[-"); (bs "5:EST]</DTSETTLE><MEMO>DIVIDEND REINVESTMENTDIVIDEND REINVESTMENT</MEMO></INVTRAN><SECID><UNIQUEID>921937835</UNIQUEID><UNIQUEIDTYPE>CUSIP</UNIQUEIDTYPE></SECID><INCOMETYPE>DIV</INCOMETYPE><TOTAL>-347"); (bs ".64977589301</TOTAL><SUBACCTSEC>CASH</SUBACCTSEC><UNITS>2374.894731116042</UNITS><UNITPRICE>-1230.0935445193008</UNITPRICE></REINVEST><REINVEST><INVTRAN><FITID>c30bcf33-8edd-4dd7-91bf-d54b6eca97b7</FI"); (bs "TID><DTTRADE>20160307160000.000[-5:EST]</DTTRADE><DTSETTLE>20160307160000.000[-5:EST]</DTSETTLE><MEMO>DIVIDEND REINVESTMENTDIVIDEND REINVESTMENT</MEMO></INVTRAN><SECID><UNIQUEID>921937835</UNIQUEID><U"); (bs "NIQUEIDTYPE>CUSIP</UNIQUEIDTYPE></SECID><INCOMETYPE>DIV</INCOMETYPE><TOTAL>2417.051313778199</TOTAL><SUBACCTSEC>CASH</SUBACCTSEC><UNITS>461.9607296369909</UNITS><UNITPRICE>-1025.0001320219317</UNITPRI"); (bs "CE></REINVEST><REINVEST><INVTRAN><FITID>324261d5-494c-49c4-bcfb-512f27d3702c</FITID><DTTRADE>20160407160000.000[-5:EST]</DTTRADE><DTSETTLE>20160407160000.000[-5:EST]</DTSETTLE><MEMO>DIVIDEND REINVESTM"); (bs "ENTDIVIDEND REINVESTMENT</MEMO></INVTRAN><SECID><UNIQUEID>921937835</UNIQUEID><UNIQUEIDTYPE>CUSIP</UNIQUEIDTYPE></SECID><INCOMETYPE>DIV</INCOMETYPE><TOTAL>3500.224708480051</TOTAL><SUBACCTSEC>CASH</SU"); (bs "BACCTSEC><UNITS>2702.8310894059196</UNITS><UNITPRICE>-1792.261661945493</UNITPRICE></REINVEST><REINVEST><INVTRAN><FITID>28ac3202-1f40-4d26-9673-96261abf06a4</FITID><DTTRADE>20160506160000.000[-5:EST]<"); (bs "/DTTRADE><DTSETTLE>20160506160000.000[-5:EST]</DTSETTLE><MEMO>DIVIDEND REINVESTMENTDIVIDEND REINVESTMENT</MEMO></INVTRAN><SECID><UNIQUEID>921937835</UNIQUEID><UNIQUEIDTYPE>CUSIP</UNIQUEIDTYPE></SECID>"); (bs "<INCOMETYPE>DIV</INCOMETYPE><TOTAL>-152.25279799932332</TOTAL><SUBACCTSEC>CASH</SUBACCTSEC><UNITS>-501.217439303663</UNITS><UNITPRICE>-1264.293386130012</UNITPRICE></REINVEST><REINVEST><INVTRAN><FITID"); (bs ">fbd84e50-79ab-4093-8520-56c437c5989b</FITID><DTTRADE>20160607160000.000[-5:EST]</DTTRADE><DTSETTLE>20160607160000.000[-5:EST]</DTSETTLE><MEMO>DIVIDEND REINVESTMENTDIVIDEND REINVESTMENT</MEMO></INVTRA"); (bs "N><SECID><UNIQUEID>921937835</UNIQUEID><UNIQUEIDTYPE>CUSIP</UNIQUEIDTYPE></SECID><INCOMETYPE>DIV</INCOMETYPE><TOTAL>2208.543518179934</TOTAL><SUBACCTSEC>CASH</SUBACCTSEC><UNITS>-530.6029451553413</UNI"); (bs "TS><UNITPRICE>1272.8801552972213</UNITPRICE></REINVEST><REINVEST><INVTRAN><FITID>99186239-b9c7-41de-a60b-f90ee4b261d8</FITID><DTTRADE>20160708160000.000[-5:EST]</DTTRADE><DTSETTLE>20160708160000.000[-"); (bs "5:EST]</DTSETTLE><MEMO>DIVIDEND REINVESTMENTDIVIDEND REINVESTMENT</MEMO></INVTRAN><SECID><UNIQUEID>921937835</UNIQUEID><UNIQUEIDTYPE>CUSIP</UNIQUEIDTYPE></SECID><INCOMETYPE>DIV</INCOMETYPE><TOTAL>-277"); (bs ".9538080741984</TOTAL><SUBACCTSEC>CASH</SUBACCTSEC><UNITS>-528.367954885613</UNITS><UNITPRICE>3868.180990916442</UNITPRICE></REINVEST><REINVEST><INVTRAN><FITID>6ca39969-5ba1-448d-9d73-d051e4163337</FI"); (bs "TID><DTTRADE>20160805160000.000[-5:EST]</DTTRADE><DTSETTLE>20160805160000.000[-5:EST]</DTSETTLE><MEMO>DIVIDEND REINVESTMENTDIVIDEND REINVESTMENT</MEMO></INVTRAN><SECID><UNIQUEID>921937835</UNIQUEID><U"); (bs "NIQUEIDTYPE>CUSIP</UNIQUEIDTYPE></SECID><INCOMETYPE>DIV</INCOMETYPE><TOTAL>1390.1352177192844</TOTAL><SUBACCTSEC>CASH</SUBACCTSEC><UNITS>-1282.7634111873078</UNITS><UNITPRICE>-1029.886744521014</UNITP"); (bs "RICE></REINVEST><REINVEST><INVTRAN><FITID>981191b4-40b0-41f8-8ba8-9c2063fe0ec9</FITID><DTTRADE>20160908160000.000[-5:EST]</DTTRADE><DTSETTLE>20160908160000.000[-5:EST]</DTSETTLE><MEMO>DIVIDEND REINVES"); (bs "TMENTDIVIDEND REINVESTMENT</MEMO></INVTRAN><SECID><UNIQUEID>921937835</UNIQUEID><UNIQUEIDTYPE>CUSIP</UNIQUEIDTYPE></SECID><INCOMETYPE>DIV</INCOMETYPE><TOTAL>782.6003016009354</TOTAL><SUBACCTSEC>CASH</"); (bs "SUBACCTSEC><UNITS>1456.8047497333328</UNITS><UNITPRICE>1249.8290763247796</UNITPRICE></REINVEST><REINVEST><INVTRAN><FITID>9b7a3810-a11b-4b6f-911a-49e445b0018f</FITID><DTTRADE>20161007160000.000[-5:EST"); (bs "]</DTTRADE><DTSETTLE>20161007160000.000[-5:EST]</DTSETTLE><MEMO>DIVIDEND REINVESTMENTDIVIDEND REINVESTMENT</MEMO></INVTRAN><SECID><UNIQUEID>921937835</UNIQUEID><UNIQUEIDTYPE>CUSIP</UNIQUEIDTYPE></SECI"); (bs "D><INCOMETYPE>DIV</INCOMETYPE><TOTAL>70.3205044010142</TOTAL><SUBACCTSEC>CASH</SUBACCTSEC><UNITS>3796.940584853094</UNITS><UNITPRICE>-1062.457078472081</UNITPRICE></REINVEST><REINVEST><INVTRAN><FITID>"); (bs "0766a122-24dc-4399-8123-c71115f66229</FITID><DTTRADE>20161107160000.000[-5:EST]</DTTRADE><DTSETTLE>20161107160000.000[-5:EST]</DTSETTLE><MEMO>DIVIDEND REINVESTMENTDIVIDEND REINVESTMENT</MEMO></INVTRAN"); (bs "><SECID><UNIQUEID>921937835</UNIQUEID><UNIQUEIDTYPE>CUSIP</UNIQUEIDTYPE></SECID><INCOMETYPE>DIV</INCOMETYPE><TOTAL>2299.071174809411</TOTAL><SUBACCTSEC>CASH</SUBACCTSEC><UNITS>4735.8314513901605</UNIT"); (bs "S><UNITPRICE>4788.540796418702</UNITPRICE></REINVEST><REINVEST><INVTRAN><FITID>32571a95-af17-4606-a711-a6dcf029b10a</FITID><DTTRADE>20161207160000.000[-5:EST]</DTTRADE><DTSETTLE>20161207160000.000[-5:"); (bs "EST]</DTSETTLE><MEMO>DIVIDEND REINVESTMENTDIVIDEND REINVESTMENT</MEMO></INVTRAN><SECID><UNIQUEID>921937835</UNIQUEID><UNIQUEIDTYPE>CUSIP</UNIQUEIDTYPE></SECID><INCOMETYPE>DIV</INCOMETYPE><TOTAL>-1533."); (bs "0306472468815</TOTAL><SUBACCTSEC>CASH</SUBACCTSEC><UNITS>-390.4765137990337</UNITS><UNITPRICE>459.80849257522095</UNITPRICE></REINVEST><REINVEST><INVTRAN><FITID>22e8ade5-d07a-448b-b406-78b45f6326cf</F"); (bs "ITID><DTTRADE>20161229160000.000[-5:EST]</DTTRADE><DTSETTLE>20161229160000.000[-5:EST]</DTSETTLE><MEMO>DIV REINVEST LT CAP GAIN</MEMO></INVTRAN><SECID><UNIQUEID>921937835</UNIQUEID><UNIQUEIDTYPE>CUSIP"); (bs "</UNIQUEIDTYPE></SECID><INCOMETYPE>DIV</INCOMETYPE><TOTAL>1988.2260617644365</TOTAL><SUBACCTSEC>CASH</SUBACCTSEC><UNITS>3758.6280421581005</UNITS><UNITPRICE>4972.58289556606</UNITPRICE></REINVEST><REI"); (bs "NVEST><INVTRAN><FITID>7918a1c7-9ed0-4d04-a94c-065bf8b977f3</FITID><DTTRADE>20161229160000.000[-5:EST]</DTTRADE><DTSETTLE>20161229160000.000[-5:EST]</DTSETTLE><MEMO>DIVIDEND REINVESTMENTDIVIDEND REINVE"); (bs "STMENT</MEMO></INVTRAN><SECID><UNIQUEID>921937835</UNIQUEID><UNIQUEIDTYPE>CUSIP</UNIQUEIDTYPE></SECID><INCOMETYPE>DIV</INCOMETYPE><TOTAL>-77.40659410599346</TOTAL><SUBACCTSEC>CASH</SUBACCTSEC><UNITS>4"); (bs "11.7060971423184</UNITS><UNITPRICE>3148.7787880383175</UNITPRICE></REINVEST><REINVEST><INVTRAN><FITID>ebd51218-a3f3-47b9-9537-f63bd46bd303</FITID><DTTRADE>20161229160000.000[-5:EST]</DTTRADE><DTSETTLE"); (bs ">20161229160000.000[-5:EST]</DTSETTLE><MEMO>DIV REINVEST ST CAP GAIN</MEMO></INVTRAN><SECID><UNIQUEID>921937835</UNIQUEID><UNIQUEIDTYPE>CUSIP</UNIQUEIDTYPE></SECID><INCOMETYPE>DIV</INCOMETYPE><TOTAL>4"); (bs "773.43800249682</TOTAL><SUBACCTSEC>CASH</SUBACCTSEC><UNITS>-1370.5195304265344</UNITS><UNITPRICE>-1062.9678794567449</UNITPRICE></REINVEST><REINVEST><INVTRAN><FITID>1d921e57-baa4-4062-921a-fdbb9ab1f47"); (bs "a</FITID><DTTRADE>20170207160000.000[-5:EST]</DTTRADE><DTSETTLE>20170207160000.000[-5:EST]</DTSETTLE><MEMO>DIVIDEND REINVESTMENTDIVIDEND REINVESTMENT</MEMO></INVTRAN><SECID><UNIQUEID>921937835</UNIQUE"); (bs "ID><UNIQUEIDTYPE>CUSIP</UNIQUEIDTYPE></SECID><INCOMETYPE>DIV</INCOMETYPE><TOTAL>-1372.6835513390852</TOTAL><SUBACCTSEC>CASH</SUBACCTSEC><UNITS>4065.6167094485336</UNITS><UNITPRICE>174.34112807874317</"); (bs "UNITPRICE></REINVEST><REINVEST><INVTRAN><FITID>c40d8462-85c1-4f77-b777-8f2744c34f92</FITID><DTTRADE>20170307160000.000[-5:EST]</DTTRADE><DTSETTLE>20170307160000.000[-5:EST]</DTSETTLE><MEMO>DIVIDEND RE"); (bs "INVESTMENTDIVIDEND REINVESTMENT</MEMO></INVTRAN><SECID><UNIQUEID>921937835</UNIQUEID><UNIQUEIDTYPE>CUSIP</UNIQUEIDTYPE></SECID><INCOMETYPE>DIV</INCOMETYPE><TOTAL>2594.475521583572</TOTAL><SUBACCTSEC>C"); (bs "ASH</SUBACCTSEC><UNITS>-1651.7027587758605</UNITS><UNITPRICE>4149.456664678262</UNITPRICE></REINVEST><SELLMF><INVSELL><INVTRAN><FITID>36d00a6f-6602-4593-a200-b723856ce623</FITID><DTTRADE>2016030916000"); (bs "0.000[-5:EST]</DTTRADE><DTSETTLE>20160309160000.000[-5:EST]</DTSETTLE><MEMO>MONEY FUND REDEMPTION</MEMO></INVTRAN><SECID><UNIQUEID>922906201</UNIQUEID><UNIQUEIDTYPE>CUSIP</UNIQUEIDTYPE></SECID><UNITS>"); (bs "2334.814219650776</UNITS><UNITPRICE>-1694.5681771062114</UNITPRICE><TOTAL>4735.917005707134</TOTAL><SUBACCTSEC>CASH</SUBACCTSEC><SUBACCTFUND>CASH</SUBACCTFUND></INVSELL><SELLTYPE>SELL</SELLTYPE></SELL"); (bs "MF><SELLMF><INVSELL><INVTRAN><FITID>925feb14-77d3-420a-827a-db93b4465af5</FITID><DTTRADE>20160916160000.000[-5:EST]</DTTRADE><DTSETTLE>20160916160000.000[-5:EST]</DTSETTLE><MEMO>MONEY FUND REDEMPTION<"); (bs "/MEMO></INVTRAN><SECID><UNIQUEID>922906201</UNIQUEID><UNIQUEIDTYPE>CUSIP</UNIQUEIDTYPE></SECID><UNITS>4295.372364405455</UNITS><UNITPRICE>3246.8949011086625</UNITPRICE><TOTAL>4834.973735025837</TOTAL>"); (bs "<SUBACCTSEC>CASH</SUBACCTSEC><SUBACCTFUND>CASH</SUBACCTFUND></INVSELL><SELLTYPE>SELL</SELLTYPE></SELLMF><SELLMF><INVSELL><INVTRAN><FITID>e5e66514-a870-4297-873a-6574d8a8b0aa</FITID><DTTRADE>2016021016"); (bs "0000.000[-5:EST]</DTTRADE><DTSETTLE>20160216160000.000[-5:EST]</DTSETTLE><MEMO>SELL</MEMO></INVTRAN><SECID><UNIQUEID>261978811</UNIQUEID><UNIQUEIDTYPE>CUSIP</UNIQUEIDTYPE></SECID><UNITS>385.7937875374"); (bs "5823</UNITS><UNITPRICE>1754.8233843951994</UNITPRICE><COMMISSION>-1157.1992982444128</COMMISSION><TOTAL>527.6610260161524</TOTAL><SUBACCTSEC>CASH</SUBACCTSEC><SUBACCTFUND>CASH</SUBACCTFUND></INVSELL><"); (bs "SELLTYPE>SELL</SELLTYPE></SELLMF><SELLMF><INVSELL><INVTRAN><FITID>9767f231-8dae-49fe-a005-d83f39fb571c</FITID><DTTRADE>20160919160000.000[-5:EST]</DTTRADE><DTSETTLE>20160920160000.000[-5:EST]</DTSETTL"); (bs "E><MEMO>SELL</MEMO></INVTRAN><SECID><UNIQUEID>922906201</UNIQUEID><UNIQUEIDTYPE>CUSIP</UNIQUEIDTYPE></SECID><UNITS>4378.111421483186</UNITS><UNITPRICE>2772.217534654248</UNITPRICE><TOTAL>-1794.7204881"); (bs "84712</TOTAL><SUBACCTSEC>CASH</SUBACCTSEC><SUBACCTFUND>CASH</SUBACCTFUND></INVSELL><SELLTYPE>SELL</SELLTYPE></SELLMF><SELLSTOCK><INVSELL><INVTRAN><FITID>ba99872b-0a43-4e98-ad43-83676f13ccc8</FITID><DT"); (bs "TRADE>20160620160000.000[-5:EST]</DTTRADE><DTSETTLE>20160623160000.000[-5:EST]</DTSETTLE><MEMO>SELL</MEMO></INVTRAN><SECID><UNIQUEID>084670702</UNIQUEID><UNIQUEIDTYPE>CUSIP</UNIQUEIDTYPE></SECID><UNIT"); (bs "S>-714.1261345131281</UNITS><UNITPRICE>-342.0917087218054</UNITPRICE><COMMISSION>3078.2330073727353</COMMISSION><FEES>-1464.4908557319884</FEES><TOTAL>4425.271509313134</TOTAL><SUBACCTSEC>CASH</SUBACC"); (bs "TSEC><SUBACCTFUND>CASH</SUBACCTFUND></INVSELL><SELLTYPE>SELL</SELLTYPE></SELLSTOCK><SELLSTOCK><INVSELL><INVTRAN><FITID>05da01b5-a0c0-4bc7-8ebc-75045f0ddcb0</FITID><DTTRADE>20160304160000.000[-5:EST]</"); (bs "DTTRADE><DTSETTLE>20160309160000.000[-5:EST]</DTSETTLE><MEMO>SELL</MEMO></INVTRAN><SECID><UNIQUEID>921937835</UNIQUEID><UNIQUEIDTYPE>CUSIP</UNIQUEIDTYPE></SECID><UNITS>34.99839888799761</UNITS><UNITPR"); (bs "ICE>2061.706825519594</UNITPRICE><FEES>886.1447439244439</FEES><TOTAL>-1552.353494167612</TOTAL><SUBACCTSEC>CASH</SUBACCTSEC><SUBACCTFUND>CASH</SUBACCTFUND></INVSELL><SELLTYPE>SELL</SELLTYPE></SELLSTO"); (bs "CK><SELLSTOCK><INVSELL><INVTRAN><FITID>4183e7d7-a876-4435-9c4b-c87bbbf45269</FITID><DTTRADE>20160210160000.000[-5:EST]</DTTRADE><DTSETTLE>20160216160000.000[-5:EST]</DTSETTLE><MEMO>SELL</MEMO></INVTRA"); (bs "N><SECID><UNIQUEID>464287465</UNIQUEID><UNIQUEIDTYPE>CUSIP</UNIQUEIDTYPE></SECID><UNITS>3156.4568246974277</UNITS><UNITPRICE>-360.26578375855047</UNITPRICE><COMMISSION>4017.0101411304004</COMMISSION><"); (bs "FEES>4741.67980576631</FEES><TOTAL>2757.176333763726</TOTAL><SUBACCTSEC>CASH</SUBACCTSEC><SUBACCTFUND>CASH</SUBACCTFUND></INVSELL><SELLTYPE>SELL</SELLTYPE></SELLSTOCK><TRANSFER><INVTRAN><FITID>e3579f9"); (bs "a-c7d0-4a6e-abcd-8ab6f049a1d5</FITID><DTTRADE>20160202160000.000[-5:EST]</DTTRADE><DTSETTLE>20160202160000.000[-5:EST]</DTSETTLE><MEMO>FOR IRA ACCOUNTSFOR IRA ACCOUNTS</MEMO></INVTRAN><SECID><UNIQUEID"); (bs ">261978811</UNIQUEID><UNIQUEIDTYPE>CUSIP</UNIQUEIDTYPE></SECID><SUBACCTSEC>CASH</SUBACCTSEC><UNITS>-944.6652942505041</UNITS><TFERACTION>IN</TFERACTION><POSTYPE>LONG</POSTYPE></TRANSFER><TRANSFER><INV"); (bs "TRAN><FITID>f7bed88a-9d81-405f-9c4b-6de2f6e47382</FITID><DTTRADE>20160202160000.000[-5:EST]</DTTRADE><DTSETTLE>20160202160000.000[-5:EST]</DTSETTLE><MEMO>FOR IRA ACCOUNTSFOR IRA ACCOUNTS</MEMO></INVTR"); (bs "AN><SECID><UNIQUEID>084670702</UNIQUEID><UNIQUEIDTYPE>CUSIP</UNIQUEIDTYPE></SECID><SUBACCTSEC>CASH</SUBACCTSEC><UNITS>4492.551705542272</UNITS><TFERACTION>IN</TFERACTION><POSTYPE>LONG</POSTYPE></TRANS"); (bs "FER><TRANSFER><INVTRAN><FITID>64250efe-6a33-416d-a3ef-88eeb7a4d3f7</FITID><DTTRADE>20160202160000.000[-5:EST]</DTTRADE><DTSETTLE>20160202160000.000[-5:EST]</DTSETTLE><MEMO>FOR IRA ACCOUNTSFOR IRA ACCO"); (bs "UNTS</MEMO></INVTRAN><SECID><UNIQUEID>921937835</UNIQUEID><UNIQUEIDTYPE>CUSIP</UNIQUEIDTYPE></SECID><SUBACCTSEC>CASH</SUBACCTSEC><UNITS>-536.6639659620153</UNITS><TFERACTION>IN</TFERACTION><POSTYPE>LO"); (bs "NG</POSTYPE></TRANSFER><TRANSFER><INVTRAN><FITID>6b2b601b-0c2c-4cfb-91e2-a268ecca7032</FITID><DTTRADE>20160202160000.000[-5:EST]</DTTRADE><DTSETTLE>20160202160000.000[-5:EST]</DTSETTLE><MEMO>FOR IRA A"); (bs "CCOUNTSFOR IRA ACCOUNTS</MEMO></INVTRAN><SECID><UNIQUEID>464287465</UNIQUEID><UNIQUEIDTYPE>CUSIP</UNIQUEIDTYPE></SECID><SUBACCTSEC>CASH</SUBACCTSEC><UNITS>2017.7913572287862</UNITS><TFERACTION>IN</TFE"); (bs "RACTION><POSTYPE>LONG</POSTYPE></TRANSFER><INVBANKTRAN><STMTTRN><TRNTYPE>OTHER</TRNTYPE><DTPOSTED>20160202160000.000[-5:EST]</DTPOSTED><TRNAMT>3730.7633832701704</TRNAMT><FITID>98ab64d2-3624-4e5f-abc5"); (bs "-b231993d3873</FITID><NAME>CASH</NAME><MEMO>FOR IRA ACCOUNTSFOR IRA ACCOUNTS</MEMO></STMTTRN><SUBACCTFUND>CASH</SUBACCTFUND></INVBANKTRAN></INVTRANLIST><INVPOSLIST><POSMF><INVPOS><SECID><UNIQUEID>9219"); (bs "09768</UNIQUEID><UNIQUEIDTYPE>CUSIP</UNIQUEIDTYPE></SECID><HELDINACCT>CASH</HELDINACCT><POSTYPE>LONG</POSTYPE><UNITS>1127.4611089185805</UNITS><UNITPRICE>3421.969333823841</UNITPRICE><MKTVAL>4064.0575"); (bs "59925758</MKTVAL><DTPRICEASOF>20170405160000.000[-5:EST]</DTPRICEASOF><MEMO>Price as of date based on closing price</MEMO></INVPOS><REINVDIV>Y</REINVDIV><REINVCG>N</REINVCG></POSMF><POSMF><INVPOS><SEC"); (bs "ID><UNIQUEID>921937835</UNIQUEID><UNIQUEIDTYPE>CUSIP</UNIQUEIDTYPE></SECID><HELDINACCT>CASH</HELDINACCT><POSTYPE>LONG</POSTYPE><UNITS>3428.985258170972</UNITS><UNITPRICE>4183.637265410978</UNITPRICE><"); (bs "MKTVAL>245.4779875808499</MKTVAL><DTPRICEASOF>20170405160000.000[-5:EST]</DTPRICEASOF><MEMO>Price as of date based on closing price</MEMO></INVPOS><REINVDIV>Y</REINVDIV><REINVCG>N</REINVCG></POSMF><PO"); (bs "SMF><INVPOS><SECID><UNIQUEID>922908728</UNIQUEID><UNIQUEIDTYPE>CUSIP</UNIQUEIDTYPE></SECID><HELDINACCT>CASH</HELDINACCT><POSTYPE>LONG</POSTYPE><UNITS>-743.019460940511</UNITS><UNITPRICE>1379.160741385"); (bs "3667</UNITPRICE><MKTVAL>4216.260823009951</MKTVAL><DTPRICEASOF>20170405160000.000[-5:EST]</DTPRICEASOF><MEMO>Price as of date based on closing price</MEMO></INVPOS><REINVDIV>Y</REINVDIV><REINVCG>Y</RE"); (bs "INVCG></POSMF><POSMF><INVPOS><SECID><UNIQUEID>922906300</UNIQUEID><UNIQUEIDTYPE>CUSIP</UNIQUEIDTYPE></SECID><HELDINACCT>CASH</HELDINACCT><POSTYPE>LONG</POSTYPE><UNITS>-1776.1307845701342</UNITS><UNITP"); (bs "RICE>3758.0299003430027</UNITPRICE><MKTVAL>4201.087474487898</MKTVAL><DTPRICEASOF>20170405160000.000[-5:EST]</DTPRICEASOF><MEMO>Price as of date based on closing price</MEMO></INVPOS><REINVDIV>N</REIN"); (bs "VDIV><REINVCG>N</REINVCG></POSMF></INVPOSLIST><INVBAL><AVAILCASH>3250.107711696731</AVAILCASH><MARGINBALANCE>414.96545358474805</MARGINBALANCE><SHORTBALANCE>4842.585013190769</SHORTBALANCE></INVBAL></"); (bs "INVSTMTRS></INVSTMTTRNRS></INVSTMTMSGSRSV1><SECLISTMSGSRSV1><SECLIST><STOCKINFO><SECINFO><SECID><UNIQUEID>084670702</UNIQUEID><UNIQUEIDTYPE>CUSIP</UNIQUEIDTYPE></SECID><SECNAME>BERKSHIRE HATHAWAY INC "); (bs "DE CL B</SECNAME><TICKER>084670702</TICKER><MEMO>FOR IRA ACCOUNTS</MEMO></SECINFO></STOCKINFO><STOCKINFO><SECINFO><SECID><UNIQUEID>464287465</UNIQUEID><UNIQUEIDTYPE>CUSIP</UNIQUEIDTYPE></SECID><SECNAM"); (bs "E>ISHARES MSCI EAFE  ETF</SECNAME><TICKER>464287465</TICKER><MEMO>FOR IRA ACCOUNTS</MEMO></SECINFO></STOCKINFO><MFINFO><SECINFO><SECID><UNIQUEID>921909768</UNIQUEID><UNIQUEIDTYPE>CUSIP</UNIQUEIDTYPE><"); (bs "/SECID><SECNAME>VANGUARD TOTAL INTL STOCK INDEX FUND ETF</SECNAME><TICKER>VXUS</TICKER><UNITPRICE>4231.006710834493</UNITPRICE><MEMO>Price as of date based on closing price</MEMO></SECINFO><MFTYPE>OPE"); (bs "NEND</MFTYPE></MFINFO><MFINFO><SECINFO><SECID><UNIQUEID>921937835</UNIQUEID><UNIQUEIDTYPE>CUSIP</UNIQUEIDTYPE></SECID><SECNAME>VANGUARD TOTAL BOND MARKET ETF</SECNAME><TICKER>BND</TICKER><UNITPRICE>-1"); (bs "905.470808585281</UNITPRICE><MEMO>Price as of date based on closing price</MEMO></SECINFO><MFTYPE>OPENEND</MFTYPE></MFINFO><MFINFO><SECINFO><SECID><UNIQUEID>922908728</UNIQUEID><UNIQUEIDTYPE>CUSIP</UN"); (bs "IQUEIDTYPE></SECID><SECNAME>Vanguard Total Stock Market Index Fund Admiral Shares</SECNAME><TICKER>VTSAX</TICKER><UNITPRICE>2130.136485094742</UNITPRICE><MEMO>Price as of date based on closing price</"); (bs "MEMO></SECINFO><MFTYPE>OPENEND</MFTYPE></MFINFO><MFINFO><SECINFO><SECID><UNIQUEID>922906300</UNIQUEID><UNIQUEIDTYPE>CUSIP</UNIQUEIDTYPE></SECID><SECNAME>Vanguard Federal Money Market Fund</SECNAME><TI"); (bs "CKER>VMFXX</TICKER><UNITPRICE>1290.0386960392157</UNITPRICE><MEMO>Price as of date based on closing price</MEMO></SECINFO><MFTYPE>OPENEND</MFTYPE></MFINFO><MFINFO><SECINFO><SECID><UNIQUEID>922906201</"); (bs "UNIQUEID><UNIQUEIDTYPE>CUSIP</UNIQUEIDTYPE></SECID><SECNAME>VANGUARD PRIME MONEY MARKET FU</SECNAME><TICKER>922906201</TICKER><MEMO>MONEY FUND PURCHASE</MEMO></SECINFO><MFTYPE>OPENEND</MFTYPE></MFINFO"); (bs "><MFINFO><SECINFO><SECID><UNIQUEID>261978811</UNIQUEID><UNIQUEIDTYPE>CUSIP</UNIQUEIDTYPE></SECID><SECNAME>20DREYFUS / LAUREL INTL SP 500</SECNAME><TICKER>261978811</TICKER><MEMO>FOR IRA ACCOUNTS</MEMO"); (bs "></SECINFO><MFTYPE>OPENEND</MFTYPE></MFINFO><MFINFO><SECINFO><SECID><UNIQUEID>FED12Q45Q</UNIQUEID><UNIQUEIDTYPE>CUSIP</UNIQUEIDTYPE></SECID><SECNAME>VANGUARD FEDERAL MONEY MARKET</SECNAME><TICKER>FED1"); (bs "2Q45Q</TICKER><MEMO>MONEY FUND PURCHASE</MEMO></SECINFO><MFTYPE>OPENEND</MFTYPE></MFINFO></SECLIST></SECLISTMSGSRSV1></OFX>")])]).
Definition sample_ira_v202_check : Prop :=
  match parse_response sample_env sample_ira_v202 with
  | (Some r, None) => round_trips r
  | _ => False
  end.
Example sample_ira_v202_ok : sample_ira_v202_check.
Proof. vm_compute. reflexivity. Qed.

(** samples/valid_responses/moneymrkt1_v103.ofx, TestValidSamples, response_test.go:155-177. *)
Definition sample_moneymrkt1_v103 : str := (doc [(bs "OFXHEADER:100");
  (bs "DATA:OFXSGML");
  (bs "VERSION:103");
  (bs "SECURITY:NONE");
  (bs "ENCODING:USASCII");
  (bs "CHARSET:1252");
  (bs "COMPRESSION:NONE");
  (bs "OLDFILEUID:NONE");
  (bs "NEWFILEUID:NONE");
  [];
  (bs "<OFX>");
  (bs "<SIGNONMSGSRSV1><SONRS>");
  (bs "<STATUS>");
  (bs "<CODE>0");
  (bs "<SEVERITY>INFO");
  (bs "</STATUS>");
  (bs "<DTSERVER>20170407001840.607[0:GMT]");
  (bs "<LANGUAGE>ENG");
  (bs "<FI>");
  (bs "<ORG>UJKDO");
  (bs "<FID>3534");
  (bs "</FI>");
  (bs "</SONRS>");
  (bs "</SIGNONMSGSRSV1>");
  (bs "<BANKMSGSRSV1>");
  (bs "<STMTTRNRS>");
  (bs "<TRNUID>e1707dfd-695d-4451-8d9c-0e142fdc456a");
  (bs "<STATUS>");
  (bs "<CODE>0");
  (bs "<SEVERITY>INFO");
  (bs "</STATUS>");
  (bs "<STMTRS>");
  (bs "<CURDEF>USD");
  (bs "<BANKACCTFROM>");
  (bs "<BANKID>598813374");
  (bs "<ACCTID>35342483513");
  (bs "<ACCTTYPE>MONEYMRKT");
  (bs "</BANKACCTFROM>");
  (bs "<BANKTRANLIST>");
  (bs "<DTSTART>20170107011841.262[0:GMT]");
  (bs "<DTEND>20170407001841.262[0:GMT]");
  (bs "<STMTTRN>");
  (bs "<TRNTYPE>CREDIT");
  (bs "<DTPOSTED>20170117120000.000[0:GMT]");
  (bs "<TRNAMT>-995.4190396554627");
  (bs "<FITID>2fb2640c-cee3-4643-8ba3-ea21a4d18954");
  (bs "<NAME>Dividend Earned");
  (bs "</STMTTRN>");
  (bs "<STMTTRN>");
  (bs "<TRNTYPE>CREDIT");
  (bs "<DTPOSTED>20170215120000.000[0:GMT]");
  (bs "<TRNAMT>788.5385340523635");
  (bs "<FITID>c9d856df-339c-47c6-9f6a-8c2e2910f62e");
  (bs "<NAME>Dividend Earned");
  (bs "</STMTTRN>");
  (bs "<STMTTRN>");
  (bs "<TRNTYPE>CREDIT");
  (bs "<DTPOSTED>20170315120000.000[0:GMT]");
  (bs "<TRNAMT>3070.1328011762807");
  (bs "<FITID>1107ace0-048b-4c0c-b5f3-45b6be4cd71d");
  (bs "<NAME>Dividend Earned");
  (bs "</STMTTRN>");
  (bs "</BANKTRANLIST>");
  (bs "<LEDGERBAL>");
  (bs "<BALAMT>2607.1664944585727");
  (bs "<DTASOF>20170407001841.262[0:GMT]");
  (bs "</LEDGERBAL>");
  (bs "<AVAILBAL>");
  (bs "<BALAMT>4503.683156768119");
  (bs "<DTASOF>20170407001841.262[0:GMT]");
  (bs "</AVAILBAL>");
  (bs "</STMTRS>");
  (bs "</STMTTRNRS>");
  (bs "</BANKMSGSRSV1>");
  (bs "</OFX>")]).
Definition sample_moneymrkt1_v103_check : Prop :=
  match parse_response sample_env sample_moneymrkt1_v103 with
  | (Some r, None) => round_trips r
  | _ => False
  end.
Example sample_moneymrkt1_v103_ok : sample_moneymrkt1_v103_check.
Proof. vm_compute. reflexivity. Qed.

(** samples/valid_responses/moneymrkt1_v103_TYPE1.ofx, TestValidSamples, response_test.go:155-177. *)
Definition sample_moneymrkt1_v103_TYPE1 : str := (doc [(bs "OFXHEADER:100");
  (bs "DATA:OFXSGML");
  (bs "VERSION:103");
  (bs "SECURITY:TYPE1");
  (bs "ENCODING:USASCII");
  (bs "CHARSET:1252");
  (bs "COMPRESSION:NONE");
  (bs "OLDFILEUID:NONE");
  (bs "NEWFILEUID:NONE");
  [];
  (bs "<OFX>");
  (bs "<SIGNONMSGSRSV1><SONRS>");
  (bs "<STATUS>");
  (bs "<CODE>0");
  (bs "<SEVERITY>INFO");
  (bs "</STATUS>");
  (bs "<DTSERVER>20170407001840.607[0:GMT]");
  (bs "<LANGUAGE>ENG");
  (bs "<FI>");
  (bs "<ORG>UJKDO");
  (bs "<FID>3534");
  (bs "</FI>");
  (bs "</SONRS>");
  (bs "</SIGNONMSGSRSV1>");
  (bs "<BANKMSGSRSV1>");
  (bs "<STMTTRNRS>");
  (bs "<TRNUID>e1707dfd-695d-4451-8d9c-0e142fdc456a");
  (bs "<STATUS>");
  (bs "<CODE>0");
  (bs "<SEVERITY>INFO");
  (bs "</STATUS>");
  (bs "<STMTRS>");
  (bs "<CURDEF>USD");
  (bs "<BANKACCTFROM>");
  (bs "<BANKID>598813374");
  (bs "<ACCTID>35342483513");
  (bs "<ACCTTYPE>MONEYMRKT");
  (bs "</BANKACCTFROM>");
  (bs "<BANKTRANLIST>");
  (bs "<DTSTART>20170107011841.262[0:GMT]");
  (bs "<DTEND>20170407001841.262[0:GMT]");
  (bs "<STMTTRN>");
  (bs "<TRNTYPE>CREDIT");
  (bs "<DTPOSTED>20170117120000.000[0:GMT]");
  (bs "<TRNAMT>-995.4190396554627");
  (bs "<FITID>2fb2640c-cee3-4643-8ba3-ea21a4d18954");
  (bs "<NAME>Dividend Earned");
  (bs "</STMTTRN>");
  (bs "<STMTTRN>");
  (bs "<TRNTYPE>CREDIT");
  (bs "<DTPOSTED>20170215120000.000[0:GMT]");
  (bs "<TRNAMT>788.5385340523635");
  (bs "<FITID>c9d856df-339c-47c6-9f6a-8c2e2910f62e");
  (bs "<NAME>Dividend Earned");
  (bs "</STMTTRN>");
  (bs "<STMTTRN>");
  (bs "<TRNTYPE>CREDIT");
  (bs "<DTPOSTED>20170315120000.000[0:GMT]");
  (bs "<TRNAMT>3070.1328011762807");
  (bs "<FITID>1107ace0-048b-4c0c-b5f3-45b6be4cd71d");
  (bs "<NAME>Dividend Earned");
  (bs "</STMTTRN>");
  (bs "</BANKTRANLIST>");
  (bs "<LEDGERBAL>");
  (bs "<BALAMT>2607.1664944585727");
  (bs "<DTASOF>20170407001841.262[0:GMT]");
  (bs "</LEDGERBAL>");
  (bs "<AVAILBAL>");
  (bs "<BALAMT>4503.683156768119");
  (bs "<DTASOF>20170407001841.262[0:GMT]");
  (bs "</AVAILBAL>");
  (bs "</STMTRS>");
  (bs "</STMTTRNRS>");
  (bs "</BANKMSGSRSV1>");
  (bs "</OFX>")]).
Definition sample_moneymrkt1_v103_TYPE1_check : Prop :=
  match parse_response sample_env sample_moneymrkt1_v103_TYPE1 with
  | (Some r, None) => round_trips r
  | _ => False
  end.
Example sample_moneymrkt1_v103_TYPE1_ok : sample_moneymrkt1_v103_TYPE1_check.
Proof. vm_compute. reflexivity. Qed.

(** samples/valid_responses/moneymrkt1_v203.ofx, TestValidSamples, response_test.go:155-177. *)
Definition sample_moneymrkt1_v203 : str := (doc [(bs "<?xml version=""1.0"" encoding=""utf-16""?>");
  (bs "<?OFX OFXHEADER=""200"" VERSION=""203"" SECURITY=""NONE"" OLDFILEUID=""NONE"" NEWFILEUID=""NONE""?>");
  (bs "<OFX>");
  (bs "  <SIGNONMSGSRSV1><SONRS>");
  (bs "  <STATUS>");
  (bs "    <CODE>0</CODE>");
  (bs "    <SEVERITY>INFO</SEVERITY>");
  (bs "  </STATUS>");
  (bs "  <DTSERVER>20170407001504.765[0:GMT]</DTSERVER>");
  (bs "  <LANGUAGE>ENG</LANGUAGE>");
  (bs "  <FI>");
  (bs "    <ORG>EHPDK</ORG>");
  (bs "    <FID>4881</FID>");
  (bs "  </FI>");
  (bs "</SONRS></SIGNONMSGSRSV1>");
  (bs "  <BANKMSGSRSV1>");
  (bs "    <STMTTRNRS>");
  (bs "      <TRNUID>262e39f1-e698-48cb-b2a2-b2f8ac2478fa</TRNUID>");
  (bs "<STATUS>");
  (bs "  <CODE>0</CODE>");
  (bs "  <SEVERITY>INFO</SEVERITY>");
  (bs "</STATUS>");
  (bs "<STMTRS>");
  (bs "  <CURDEF>USD</CURDEF>");
  (bs "  <BANKACCTFROM>");
  (bs "    <BANKID>188545178</BANKID>");
  (bs "    <ACCTID>83483499583</ACCTID>");
  (bs "    <ACCTTYPE>MONEYMRKT</ACCTTYPE>");
  (bs "  </BANKACCTFROM>");
  (bs "  <BANKTRANLIST>");
  (bs "    <DTSTART>20170107011505.296[0:GMT]</DTSTART>");
  (bs "    <DTEND>20170407001505.296[0:GMT]</DTEND>");
  (bs "    <STMTTRN>");
  (bs "      <TRNTYPE>CREDIT</TRNTYPE>");
  (bs "      <DTPOSTED>20170117120000.000[0:GMT]</DTPOSTED>");
  (bs "      <TRNAMT>1303.7355652284177</TRNAMT>");
  (bs "      <FITID>fa603343-dd05-434e-9ffc-933f51f8cedf</FITID>");
  (bs "      <NAME>Dividend Earned</NAME>");
  (bs "    </STMTTRN>");
  (bs "    <STMTTRN>");
  (bs "      <TRNTYPE>CREDIT</TRNTYPE>");
  (bs "      <DTPOSTED>20170215120000.000[0:GMT]</DTPOSTED>");
  (bs "      <TRNAMT>4321.245210194117</TRNAMT>");
  (bs "      <FITID>061f8fb0-8b56-4938-a45e-5db0e42d74f7</FITID>");
  (bs "      <NAME>Dividend Earned</NAME>");
  (bs "    </STMTTRN>");
  (bs "    <STMTTRN>");
  (bs "      <TRNTYPE>CREDIT</TRNTYPE>");
  (bs "      <DTPOSTED>20170315120000.000[0:GMT]</DTPOSTED>");
  (bs "      <TRNAMT>-850.1196618322863</TRNAMT>");
  (bs "      <FITID>a43dfadf-350b-4bb1-85d7-8be57ad0ef82</FITID>");
  (bs "      <NAME>Dividend Earned</NAME>");
  (bs "    </STMTTRN>");
  (bs "  </BANKTRANLIST>");
  (bs "  <LEDGERBAL>");
  (bs "    <BALAMT>3317.738651126686</BALAMT>");
  (bs "    <DTASOF>20170407001505.296[0:GMT]</DTASOF>");
  (bs "  </LEDGERBAL>");
  (bs "  <AVAILBAL>");
  (bs "    <BALAMT>658.9377225082694</BALAMT>");
  (bs "    <DTASOF>20170407001505.296[0:GMT]</DTASOF>");
  (bs "  </AVAILBAL>");
  (bs "</STMTRS></STMTTRNRS>");
  (bs "  </BANKMSGSRSV1>");
  (bs "</OFX>")]).
Definition sample_moneymrkt1_v203_check : Prop :=
  match parse_response sample_env sample_moneymrkt1_v203 with
  | (Some r, None) => round_trips r
  | _ => False
  end.
Example sample_moneymrkt1_v203_ok : sample_moneymrkt1_v203_check.
Proof. vm_compute. reflexivity. Qed.

(** samples/busted_responses/bmo_v102__no_header_newline.qfx, TestValidSamples, response_test.go:155-177. *)
Definition sample_bmo_v102__no_header_newline : str := (doc [(bs "OFXHEADER:100");
  (bs "DATA:OFXSGML");
  (bs "VERSION:102");
  (bs "SECURITY:NONE");
  (bs "ENCODING:USASCII");
  (bs "CHARSET:1252");
  (bs "COMPRESSION:NONE");
  (bs "OLDFILEUID:NONE");
  (bs "NEWFILEUID:NONE");
  (bs "<OFX>");
  (bs "<SIGNONMSGSRSV1>");
  (bs "<SONRS>");
  (bs "<STATUS>");
  (bs "<CODE>0");
  (bs "<SEVERITY>INFO");
  (bs "<MESSAGE>OK");
  (bs "</STATUS>");
  (bs "<DTSERVER>20181202184906.217[-5:EDT]");
  (bs "<USERKEY>SJLDF802DV09DF80");
  (bs "<LANGUAGE>ENG");
  (bs "<INTU.BID>00017");
  (bs "</SONRS>");
  (bs "</SIGNONMSGSRSV1>");
  (bs "<CREDITCARDMSGSRSV1>");
  (bs "<CCSTMTTRNRS>");
  (bs "<TRNUID>1");
  (bs "<STATUS>");
  (bs "<CODE>0");
  (bs "<SEVERITY>INFO");
  (bs "<MESSAGE>OK");
  (bs "</STATUS>");
  (bs "<CCSTMTRS>");
  (bs "<CURDEF>CAD");
  (bs "<CCACCTFROM>");
  (bs "<ACCTID>2380370270281083");
  (bs "</CCACCTFROM>");
  (bs "<BANKTRANLIST>");
  (bs "<DTSTART>20181202184905.909[-5:EDT]");
  (bs "<DTEND>20181202184905.909[-5:EDT]");
  (bs "<STMTTRN>");
  (bs "<TRNTYPE>CREDIT");
  (bs "<DTPOSTED>20181030000000.000[-5:EDT]");
  (bs "<TRNAMT>2042.24");
  (bs "<FITID>2380370270281083201810302054456");
  (bs "<NAME>PAYMENT RECEIVED - THANK YOU");
  (bs "</STMTTRN>");
  (bs "</BANKTRANLIST>");
  (bs "<LEDGERBAL>");
  (bs "<BALAMT>-552.63");
  (bs "<DTASOF>20181202184906.217[-5:EDT]");
  (bs "</LEDGERBAL>");
  (bs "<AVAILBAL>");
  (bs "<BALAMT>-552.63");
  (bs "<DTASOF>20181202184906.217[-5:EDT]");
  (bs "</AVAILBAL>");
  (bs "</CCSTMTRS>");
  (bs "</CCSTMTTRNRS>");
  (bs "</CREDITCARDMSGSRSV1>");
  (bs "</OFX>");
  []]).
Definition sample_bmo_v102__no_header_newline_check : Prop :=
  match parse_response sample_env sample_bmo_v102__no_header_newline with
  | (Some r, None) => round_trips r
  | _ => False
  end.
Example sample_bmo_v102__no_header_newline_ok : sample_bmo_v102__no_header_newline_check.
Proof. vm_compute. reflexivity. Qed.

(** samples/busted_responses/wellsfargo.qfx, TestValidSamples, response_test.go:155-177. *)
Definition sample_wellsfargo : str := (doc [(bs "OFXHEADER:100DATA:OFXSGMLVERSION:102SECURITY:NONEENCODING:USASCIICHARSET:1252COMPRESSION:NONEOLDFILEUID:NONENEWFILEUID:NONE<OFX><SIGNONMSGSRSV1><SONRS><STATUS><CODE>0<SEVERITY>INFO<MESSAGE>SUCCESS</STATUS><DTSERVER>20210102211014.201[-8:PST]<LANGUAGE>ENG<FI><ORG>WF<FID>1000</FI><SESSCOOKIE>abc-123<INTU.BID>1000<INTU.USERID>jane_doe</SONRS></SIGNONMSGSRSV1><BANKMSGSRSV1><STMTTRNRS><TRNUID>0<STATUS><CODE>0<SEVERITY>INFO<MESSAGE>SUCCESS</STATUS><STMTRS><CURDEF>USD<BANKACCTFROM><BANKID>123456789<ACCTID>9876543210<ACCTTYPE>CHECKING</BANKACCTFROM><BANKTRANLIST><DTSTART>20201201120000.000[-8:PST]<DTEND>20201231120000.000[-8:PST]<STMTTRN><TRNTYPE>DIRECTDEBIT<DTPOSTED>20201201120000.000[-8:PST]<TRNAMT>-12.34<FITID>202012011<NAME>AE Visa Card AE EPAY<MEMO> XXXXX1234</STMTTRN></BANKTRANLIST><LEDGERBAL><BALAMT>123.45<DTASOF>20201231120000.000[-8:PST]</LEDGERBAL><AVAILBAL><BALAMT>123.45<DTASOF>20201231120000.000[-8:PST]</AVAILBAL></STMTRS></STMTTRNRS></BANKMSGSRSV1></OFX>")]).
Definition sample_wellsfargo_check : Prop :=
  match parse_response sample_env sample_wellsfargo with
  | (Some r, None) => round_trips r
  | _ => False
  end.
Example sample_wellsfargo_ok : sample_wellsfargo_check.
Proof. vm_compute. reflexivity. Qed.

