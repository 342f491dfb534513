(** What is said about the list of commands: its text. *)
From Verif Require Import GoStr.

Definition introduction : list str :=
  [bs "The ofxgo command-line client provides a simple interface to";
   bs "query, parse, and display financial data via the OFX specification.";
   bs "";
   bs "Usage:";
   chr 9 :: bs "ofx command [arguments]";
   bs "";
   bs "The commands are:"].

Definition commands_listed : list str :=
  [bs "    download-profile     Download a FI profile to a file";
   bs "    get-accounts         List accounts at your financial institution";
   bs "    download-bank        Download a bank account statement to a file";
   bs "    download-cc          Download a credit card account statement to a file";
   bs "    download-inv         Download a investment account statement to a file";
   bs "    transactions-bank    Print bank transactions and balance";
   bs "    transactions-cc      Print credit card transactions and balance";
   bs "    transactions-inv     Print investment transactions";
   bs "    detect-settings      Attempt to guess client settings needed for a particular financial institution"].

(** Lines of text. *)
Definition lines (l : list str) : str := concat (map (fun s => s ++ [chr 10]) l).
