(** The tests of /repo/types_test.go and TestInvalidResponse of
    /repo/response_test.go evaluated in the model, generated by
    tools/gen_fidelity.py. Tests of the model, not proofs of properties. *)
From Coq Require Import QArith List.
From Verif Require Import GoStr GoNum GoTime Types Enums EnumTables Records Messages Codec Document Xml Headers Wire Samples Fidelity.
Close Scope Q_scope.
Import ListNotations.

(** The text of <T>text</T> as the library reads it. *)
Definition element_text (s : str) : option str :=
  a <- next_token (lex true (bs "<T>" ++ s ++ bs "</T>")) ;;
  match fst a with
  | TStart sp nm => n <- read_element true [] (snd a) [(sp, nm, [])] ;;
      match n with Elem _ kids => Some (text_of kids) | _ => None end
  | _ => None
  end.
Definition read_as {A} (f : str -> option A) (s : str) : option A := t <- element_text s ;; f t.

(** types_test.go:58. *)
Example TestMarshalInt :
  int_marshal (927)%Z = (bs "927") /\
  int_marshal (0)%Z = (bs "0") /\
  int_marshal (-768276587425)%Z = (bs "-768276587425").
Proof. vm_compute. repeat split; reflexivity. Qed.

(** types_test.go:67. *)
Example TestUnmarshalInt :
  read_as (fun t => int_unmarshal t) (bs "-48394") = Some (-48394)%Z /\
  read_as (fun t => int_unmarshal t) (bs "0") = Some (0)%Z /\
  read_as (fun t => int_unmarshal t) (bs "198237198") = Some (198237198)%Z /\
  read_as (fun t => int_unmarshal t) (bytes [49;57;56;50;51;55;49;57;56;10]%N) = Some (198237198)%Z /\
  read_as (fun t => int_unmarshal t) (bytes [49;57;56;50;51;55;49;57;56;10;9]%N) = Some (198237198)%Z.
Proof. vm_compute. repeat split; reflexivity. Qed.

(** types_test.go:79. *)
Example TestMarshalAmount :
  amount_string (8 # 1) = (bs "8") /\
  amount_string (1 # 8) = (bs "0.125") /\
  amount_string (-1 # 200) = (bs "-0.005") /\
  amount_string (0 # 1) = (bs "0") /\
  amount_string (-768276587425 # 1) = (bs "-768276587425") /\
  amount_string (1 # 12) = (bs "0.0833333333333333333333333333333333333333333333333333333333333333333333333333333333333333333333333333").
Proof. vm_compute. repeat split; reflexivity. Qed.

(** types_test.go:103. *)
Example TestUnmarshalAmount :
  option_map (fun x => amount_equal x (12 # 1)) (read_as amount_unmarshal (bs "12")) = Some true /\
  option_map (fun x => amount_equal x (-21309 # 100)) (read_as amount_unmarshal (bs "-213.09")) = Some true /\
  option_map (fun x => amount_equal x (1024 # 125)) (read_as amount_unmarshal (bs "8.192")) = Some true /\
  option_map (fun x => amount_equal x (1024 # 125)) (read_as amount_unmarshal (bs "+8.192")) = Some true /\
  option_map (fun x => amount_equal x (0 # 1)) (read_as amount_unmarshal (bs "0")) = Some true /\
  option_map (fun x => amount_equal x (0 # 1)) (read_as amount_unmarshal (bs "+0")) = Some true /\
  option_map (fun x => amount_equal x (0 # 1)) (read_as amount_unmarshal (bs "-0")) = Some true /\
  option_map (fun x => amount_equal x (-19487135 # 1)) (read_as amount_unmarshal (bs "-19487135")) = Some true /\
  option_map (fun x => amount_equal x (-19487135 # 1)) (read_as amount_unmarshal (bytes [45;49;57;52;56;55;49;51;53;10]%N)) = Some true /\
  option_map (fun x => amount_equal x (-19487135 # 1)) (read_as amount_unmarshal (bytes [45;49;57;52;56;55;49;51;53;10;32;9;32]%N)) = Some true.
Proof. vm_compute. repeat split; reflexivity. Qed.

(** types_test.go:162. *)
Example TestMarshalDate :
  date_string (go_date (2017) (3) (14) (15) (9) (26) (53000000) (0) (bs "GMT")) = (bs "20170314150926.053[0:GMT]") /\
  date_string (go_date (2017) (3) (14) (15) (9) (26) (53000000) (20700) (bs "NPT")) = (bs "20170314150926.053[5.75:NPT]") /\
  date_string (go_date (2017) (3) (14) (15) (9) (26) (53000000) (-18000) (bs "EST")) = (bs "20170314150926.053[-5:EST]") /\
  date_string (go_date (2017) (3) (14) (15) (9) (26) (53000000) (0) (bs "UTC")) = (bs "20170314150926.053[0:UTC]") /\
  date_string (go_date (2017) (3) (14) (15) (9) (26) (53000000) (19800) (bs "IST")) = (bs "20170314150926.053[5.50:IST]") /\
  date_string (go_date (9999) (11) (1) (23) (59) (59) (1000) (-18000) (bs "EST")) = (bs "99991101235959.000[-5:EST]") /\
  date_string (go_date (0) (1) (1) (0) (0) (0) (0) (19800) (bs "IST")) = (bs "00000101000000.000[5.50:IST]") /\
  date_string (go_date (1970) (1) (1) (0) (0) (0) (0) (0) (bs "UTC")) = (bs "19700101000000.000[0:UTC]") /\
  date_string (go_date (2017) (3) (14) (0) (0) (26) (53000000) (-18000) (bs "EST")) = (bs "20170314000026.053[-5:EST]") /\
  date_string (go_date (2017) (3) (14) (0) (0) (26) (53000000) (-12600) (bs "NST")) = (bs "20170314000026.053[-3.50:NST]") /\
  date_string (go_date (2017) (3) (14) (15) (9) (26) (53000000) (0) []) = (bs "20170314150926.053[0]").
Proof. vm_compute. repeat split; reflexivity. Qed.

(** types_test.go:204. *)
Example TestUnmarshalDate :
  option_map (fun x => date_equal x (go_date (2017) (3) (14) (15) (9) (26) (53000000) (0) (bs "GMT"))) (read_as (date_unmarshal sample_env) (bs "20170314150926.053[0]")) = Some true /\
  option_map (fun x => date_equal x (go_date (2017) (3) (14) (15) (9) (26) (53000000) (0) (bs "GMT"))) (read_as (date_unmarshal sample_env) (bs "20170314150926.053")) = Some true /\
  option_map (fun x => date_equal x (go_date (2017) (3) (14) (0) (0) (0) (0) (0) (bs "GMT"))) (read_as (date_unmarshal sample_env) (bs "20170314")) = Some true /\
  option_map (fun x => date_equal x (go_date (2017) (3) (14) (15) (9) (26) (53000000) (0) (bs "GMT"))) (read_as (date_unmarshal sample_env) (bs "20170314150926.053[0:GMT]")) = Some true /\
  option_map (fun x => date_equal x (go_date (2017) (3) (14) (15) (9) (26) (53000000) (0) (bs "GMT"))) (read_as (date_unmarshal sample_env) (bs "20170314150926.053[+0:GMT]")) = Some true /\
  option_map (fun x => date_equal x (go_date (2017) (3) (14) (15) (9) (26) (53000000) (0) (bs "GMT"))) (read_as (date_unmarshal sample_env) (bs "20170314150926.053[-0:GMT]")) = Some true /\
  option_map (fun x => date_equal x (go_date (2017) (3) (14) (15) (9) (26) (53000000) (0) (bs "GMT"))) (read_as (date_unmarshal sample_env) (bs "20170314150926.053[0]")) = Some true /\
  option_map (fun x => date_equal x (go_date (2017) (3) (14) (15) (9) (26) (53000000) (0) (bs "GMT"))) (read_as (date_unmarshal sample_env) (bs "20170314150926.053[+0]")) = Some true /\
  option_map (fun x => date_equal x (go_date (2017) (3) (14) (15) (9) (26) (53000000) (0) (bs "GMT"))) (read_as (date_unmarshal sample_env) (bs "20170314150926.053[-0]")) = Some true /\
  option_map (fun x => date_equal x (go_date (2017) (3) (14) (15) (9) (26) (53000000) (20700) (bs "NPT"))) (read_as (date_unmarshal sample_env) (bs "20170314150926.053[5.75:NPT]")) = Some true /\
  option_map (fun x => date_equal x (go_date (2017) (3) (14) (15) (9) (26) (53000000) (-18000) (bs "EST"))) (read_as (date_unmarshal sample_env) (bs "20170314150926.053[-5:EST]")) = Some true /\
  option_map (fun x => date_equal x (go_date (2017) (3) (14) (15) (9) (26) (53000000) (0) (bs "GMT"))) (read_as (date_unmarshal sample_env) (bs "20170314150926.053[0:GMT]")) = Some true /\
  option_map (fun x => date_equal x (go_date (2017) (3) (14) (15) (9) (26) (53000000) (19800) (bs "IST"))) (read_as (date_unmarshal sample_env) (bs "20170314150926.053[5.50:IST]")) = Some true /\
  option_map (fun x => date_equal x (go_date (2018) (11) (1) (23) (59) (58) (0) (-18000) (bs "EST"))) (read_as (date_unmarshal sample_env) (bs "20181101235958.000[-5:EST]")) = Some true /\
  option_map (fun x => date_equal x (go_date (0) (1) (1) (0) (0) (0) (0) (19800) (bs "IST"))) (read_as (date_unmarshal sample_env) (bs "00000101000000.000[5.50:IST]")) = Some true /\
  option_map (fun x => date_equal x (go_date (1970) (1) (1) (0) (0) (0) (0) (0) (bs "GMT"))) (read_as (date_unmarshal sample_env) (bs "19700101000000.000[0:GMT]")) = Some true /\
  option_map (fun x => date_equal x (go_date (2017) (3) (14) (0) (0) (26) (53000000) (-18000) (bs "EST"))) (read_as (date_unmarshal sample_env) (bs "20170314000026.053[-5:EST]")) = Some true /\
  option_map (fun x => date_equal x (go_date (2017) (3) (14) (0) (0) (26) (53000000) (-12600) (bs "NST"))) (read_as (date_unmarshal sample_env) (bs "20170314000026.053[-3.50:NST]")) = Some true /\
  option_map (fun x => date_equal x (go_date (2017) (3) (14) (15) (9) (26) (53000000) (0) (bs "GMT"))) (read_as (date_unmarshal sample_env) (bs "20170314150926.053[0]")) = Some true /\
  option_map (fun x => date_equal x (go_date (2017) (3) (14) (0) (0) (26) (53000000) (-12600) [])) (read_as (date_unmarshal sample_env) (bs "20170314000026.053[-3.50]")) = Some true /\
  option_map (fun x => date_equal x (go_date (2016) (12) (7) (16) (0) (0) (0) (-18000) (bs "EST"))) (read_as (date_unmarshal sample_env) (bs "20161207160000.000[-5:EST]610900.500[-9:BST]")) = Some true /\
  option_map (fun x => date_equal x (go_date (2018) (11) (1) (23) (59) (58) (0) (-18000) (bs "EST"))) (read_as (date_unmarshal sample_env) (bytes [50;48;49;56;49;49;48;49;50;51;53;57;53;56;46;48;48;48;91;45;53;58;69;83;84;93;10]%N)) = Some true /\
  option_map (fun x => date_equal x (go_date (2018) (11) (1) (23) (59) (58) (0) (-18000) (bs "EST"))) (read_as (date_unmarshal sample_env) (bytes [50;48;49;56;49;49;48;49;50;51;53;57;53;56;46;48;48;48;91;45;53;58;69;83;84;93;10;9]%N)) = Some true.
Proof. vm_compute. repeat split; reflexivity. Qed.

(** types_test.go:306. *)
Example TestMarshalString :
  (fun s => escape (string_marshal s)) (@nil Ascii.ascii) = [] /\
  (fun s => escape (string_marshal s)) (bs "foo&bar") = (bs "foo&amp;bar") /\
  (fun s => escape (string_marshal s)) (bytes [10]%N) = (bs "&#xA;") /\
  (fun s => escape (string_marshal s)) (bs "Some Name") = (bs "Some Name").
Proof. vm_compute. repeat split; reflexivity. Qed.

(** types_test.go:317. *)
Example TestUnmarshalString :
  read_as (fun t => Some (string_unmarshal t)) [] = Some (@nil Ascii.ascii) /\
  read_as (fun t => Some (string_unmarshal t)) (bs "foo&amp;bar") = Some (bs "foo&bar") /\
  read_as (fun t => Some (string_unmarshal t)) (bs " new&#xA;line&#xA;") = Some (bytes [110;101;119;10;108;105;110;101]%N) /\
  read_as (fun t => Some (string_unmarshal t)) (bs "Some Name") = Some (bs "Some Name") /\
  read_as (fun t => Some (string_unmarshal t)) (bytes [83;111;109;101;32;78;97;109;101;10]%N) = Some (bs "Some Name") /\
  read_as (fun t => Some (string_unmarshal t)) (bytes [83;111;109;101;32;78;97;109;101;10;32;32]%N) = Some (bs "Some Name").
Proof. vm_compute. repeat split; reflexivity. Qed.

(** types_test.go:340. *)
Example TestMarshalBoolean :
  boolean_marshal true = (bs "Y") /\
  boolean_marshal false = (bs "N").
Proof. vm_compute. repeat split; reflexivity. Qed.

(** types_test.go:353. *)
Example TestUnmarshalBoolean :
  read_as boolean_unmarshal (bs "Y") = Some true /\
  read_as boolean_unmarshal (bs "N") = Some false /\
  read_as boolean_unmarshal (bytes [78;10]%N) = Some false /\
  read_as boolean_unmarshal (bytes [78;10;32;9]%N) = Some false.
Proof. vm_compute. repeat split; reflexivity. Qed.

(** types_test.go:374. *)
Example TestMarshalUID :
  (fun s => escape s) (bs "d1cf3d3d-9ef9-4a97-b180-81706829cb04") = (bs "d1cf3d3d-9ef9-4a97-b180-81706829cb04").
Proof. vm_compute. repeat split; reflexivity. Qed.

(** types_test.go:379. *)
Example TestUnmarshalUID :
  read_as (fun t => Some (uid_unmarshal t)) (bs "d1cf3d3d-9ef9-4a97-b180-81706829cb04") = Some (bs "d1cf3d3d-9ef9-4a97-b180-81706829cb04") /\
  read_as (fun t => Some (uid_unmarshal t)) (bytes [48;102;57;52;99;101;56;51;45;49;51;98;55;45;55;53;54;56;45;101;52;102;99;45;99;48;50;99;55;98;52;55;101;55;97;98;10]%N) = Some (bs "0f94ce83-13b7-7568-e4fc-c02c7b47e7ab") /\
  read_as (fun t => Some (uid_unmarshal t)) (bytes [48;102;57;52;99;101;56;51;45;49;51;98;55;45;55;53;54;56;45;101;52;102;99;45;99;48;50;99;55;98;52;55;101;55;97;98;10;9]%N) = Some (bs "0f94ce83-13b7-7568-e4fc-c02c7b47e7ab").
Proof. vm_compute. repeat split; reflexivity. Qed.

(** types_test.go:432. *)
Example TestMarshalCurrSymbol :
  curr_marshal (bs "USD") = (bs "USD").
Proof. vm_compute. repeat split; reflexivity. Qed.

(** types_test.go:443. *)
Example TestUnmarshalCurrSymbol :
  read_as (curr_unmarshal sample_env) (bs "USD") = Some (bs "USD") /\
  read_as (curr_unmarshal sample_env) (bytes [69;85;82;10]%N) = Some (bs "EUR") /\
  read_as (curr_unmarshal sample_env) (bytes [69;85;82;10;9]%N) = Some (bs "EUR").
Proof. vm_compute. repeat split; reflexivity. Qed.

(** TestInvalidResponse, response_test.go:177-258. *)
Definition invalid_response : str := (doc [(bs "OFXHEADER:100");
  (bs "DATA:OFXSGML");
  (bs "VERSION:102");
  (bs "SECURITY:NONE");
  (bs "ENCODING:USASCII");
  (bs "CHARSET:1252");
  (bs "COMPRESSION:NONE");
  (bs "OLDFILEUID:NONE");
  (bs "NEWFILEUID:NONE");
  [];
  (bs "<OFX>");
  (bs "	<SIGNONMSGSRSV1>");
  (bs "		<SONRS>");
  (bs "			<STATUS>");
  (bs "				<CODE>0</CODE>");
  (bs "				<SEVERITY>Info</SEVERITY>");
  (bs "			</STATUS>");
  (bs "			<LANGUAGE>ENG</LANGUAGE>");
  (bs "		</SONRS>");
  (bs "	</SIGNONMSGSRSV1>");
  (bs "	<BANKMSGSRSV1>");
  (bs "		<STMTTRNRS>");
  (bs "			<TRNUID>0</TRNUID>");
  (bs "			<STATUS>");
  (bs "				<CODE>0</CODE>");
  (bs "				<SEVERITY>Info</SEVERITY>");
  (bs "			</STATUS>");
  (bs "		</STMTTRNRS>");
  (bs "	</BANKMSGSRSV1>");
  (bs "</OFX>");
  []]).
Example TestInvalidResponse :
  match parse_response sample_env invalid_response with
  | (Some _, Some (EInvalid l)) => l = [EPlain (bs "Invalid STATUS>SEVERITY"); EPlain (bs "Invalid STATUS>SEVERITY")]
  | _ => False
  end /\ fst (parse_response sample_env []) = None.
Proof. vm_compute. split; reflexivity. Qed.

