(** statusMeanings, common.go:166-260, transcribed by tools/gen_status.py: code,
    meaning, severity, conditions. *)
From Coq Require Import ZArith.
From Verif Require Import GoStr.
Local Open Scope Z_scope.

Definition status_meanings : list (Z * (str * str * str)) :=
  [(0, (bs "Success", bs "INFO", bs "The server successfully processed the request."));
   (1, (bs "Client is up-to-date", bs "INFO", bs "Based on the client timestamp, the client has the latest information. The response does not supply any additional information."));
   (2000, (bs "General error", bs "ERROR", bs "Error other than those specified by the remaining error codes. Note: Servers should provide a more specific error whenever possible. Error code 2000 should be reserved for cases in which a more specific code is not available."));
   (2001, (bs "Invalid account", bs "ERROR", bs ""));
   (2002, (bs "General account error", bs "ERROR", bs "Account error not specified by the remaining error codes."));
   (2003, (bs "Account not found", bs "ERROR", bs "The specified account number does not correspond to one of the user’s accounts."));
   (2004, (bs "Account closed", bs "ERROR", bs "The specified account number corresponds to an account that has been closed."));
   (2005, (bs "Account not authorized", bs "ERROR", bs "The user is not authorized to perform this action on the account, or the server does not allow this type of action to be performed on the account."));
   (2006, (bs "Source account not found", bs "ERROR", bs "The specified account number does not correspond to one of the user’s accounts."));
   (2007, (bs "Source account closed", bs "ERROR", bs "The specified account number corresponds to an account that has been closed."));
   (2008, (bs "Source account not authorized", bs "ERROR", bs "The user is not authorized to perform this action on the account, or the server does not allow this type of action to be performed on the account."));
   (2009, (bs "Destination account not found", bs "ERROR", bs "The specified account number does not correspond to one of the user’s accounts."));
   (2010, (bs "Destination account closed", bs "ERROR", bs "The specified account number corresponds to an account that has been closed."));
   (2011, (bs "Destination account not authorized", bs "ERROR", bs "The user is not authorized to perform this action on the account, or the server does not allow this type of action to be performed on the account."));
   (2012, (bs "Invalid amount", bs "ERROR", bs "The specified amount is not valid for this action; for example, the user specified a negative payment amount."));
   (2014, (bs "Date too soon", bs "ERROR", bs "The server cannot process the requested action by the date specified by the user."));
   (2015, (bs "Date too far in future", bs "ERROR", bs "The server cannot accept requests for an action that far in the future."));
   (2016, (bs "Transaction already committed", bs "ERROR", bs "Transaction has entered the processing loop and cannot be modified/cancelled using OFX.  The transaction may still be cancelled or modified using other means (for example, a phone call to Customer Service)."));
   (2017, (bs "Already canceled", bs "ERROR", bs "The transaction cannot be canceled or modified because it has already been canceled."));
   (2018, (bs "Unknown server ID", bs "ERROR", bs "The specified server ID does not exist or no longer exists."));
   (2019, (bs "Duplicate request", bs "ERROR", bs "A request with this <TRNUID> has already been received and processed."));
   (2020, (bs "Invalid date", bs "ERROR", bs "The specified datetime stamp cannot be parsed; for instance, the datetime stamp specifies 25:00 hours."));
   (2021, (bs "Unsupported version", bs "ERROR", bs "The server does not support the requested version. The version of the message set specified by the client is not supported by this server."));
   (2022, (bs "Invalid TAN", bs "ERROR", bs "The server was unable to validate the TAN sent in the request."));
   (2023, (bs "Unknown FITID", bs "ERROR", bs "The specified FITID/BILLID does not exist or no longer exists.  [BILLID not found (ERROR) in the billing message sets]"));
   (2025, (bs "Branch ID missing", bs "ERROR", bs "A <BRANCHID> value must be provided in the <BANKACCTFROM> aggregate for this country system, but this field is missing."));
   (2026, (bs "Bank name doesn’t match bank ID", bs "ERROR", bs "The value of <BANKNAME> in the <EXTBANKACCTTO> aggregate is inconsistent with the value of <BANKID> in the <BANKACCTTO> aggregate."));
   (2027, (bs "Invalid date range", bs "ERROR", bs "Response for non-overlapping dates, date ranges in the future, et cetera."));
   (2028, (bs "Requested element unknown", bs "WARN", bs "One or more elements of the request were not recognized by the server or the server (as noted in the FI Profile) does not support the elements. The server executed the element transactions it understood and supported. For example, the request file included private tags in a <PMTRQ> but the server was able to execute the rest of the request."));
   (3000, (bs "MFA Challenge authentication required", bs "ERROR", bs "User credentials are correct, but further authentication required. Client should send <MFACHALLENGERQ> in next request."));
   (3001, (bs "MFA Challenge information is invalid", bs "ERROR", bs "User or client information sent in MFACHALLENGEA contains invalid information"));
   (6500, (bs "<REJECTIFMISSING>Y invalid without <TOKEN>", bs "ERROR", bs "This error code may appear in the <SYNCERROR> element of an <xxxSYNCRS> wrapper (in <PRESDLVMSGSRSV1> and V2 message set responses) or the <CODE> contained in any embedded transaction wrappers within a sync response. The corresponding sync request wrapper included <REJECTIFMISSING>Y with <REFRESH>Y or <TOKENONLY>Y, which is illegal."));
   (6501, (bs "Embedded transactions in request failed to process: Out of date", bs "WARN", bs "<REJECTIFMISSING>Y and embedded transactions appeared in the request sync wrapper and the provided <TOKEN> was out of date. This code should be used in the <SYNCERROR> of the response sync wrapper."));
   (6502, (bs "Unable to process embedded transaction due to out-of-date <TOKEN>", bs "ERROR", bs "Used in response transaction wrapper for embedded transactions when <SYNCERROR>6501 appears in the surrounding sync wrapper."));
   (10000, (bs "Stop check in process", bs "INFO", bs "Stop check is already in process."));
   (10500, (bs "Too many checks to process", bs "ERROR", bs "The stop-payment request <STPCHKRQ> specifies too many checks."));
   (10501, (bs "Invalid payee", bs "ERROR", bs "Payee error not specified by the remaining error codes."));
   (10502, (bs "Invalid payee address", bs "ERROR", bs "Some portion of the payee’s address is incorrect or unknown."));
   (10503, (bs "Invalid payee account number", bs "ERROR", bs "The account number <PAYACCT> of the requested payee is invalid."));
   (10504, (bs "Insufficient funds", bs "ERROR", bs "The server cannot process the request because the specified account does not have enough funds."));
   (10505, (bs "Cannot modify element", bs "ERROR", bs "The server does not allow modifications to one or more values in a modification request."));
   (10506, (bs "Cannot modify source account", bs "ERROR", bs "Reserved for future use."));
   (10507, (bs "Cannot modify destination account", bs "ERROR", bs "Reserved for future use."));
   (10508, (bs "Invalid frequency", bs "ERROR", bs "The specified frequency <FREQ> does not match one of the accepted frequencies for recurring transactions."));
   (10509, (bs "Model already canceled", bs "ERROR", bs "The server has already canceled the specified recurring model."));
   (10510, (bs "Invalid payee ID", bs "ERROR", bs "The specified payee ID does not exist or no longer exists."));
   (10511, (bs "Invalid payee city", bs "ERROR", bs "The specified city is incorrect or unknown."));
   (10512, (bs "Invalid payee state", bs "ERROR", bs "The specified state is incorrect or unknown."));
   (10513, (bs "Invalid payee postal code", bs "ERROR", bs "The specified postal code is incorrect or unknown."));
   (10514, (bs "Transaction already processed", bs "ERROR", bs "Transaction has already been sent or date due is past"));
   (10515, (bs "Payee not modifiable by client", bs "ERROR", bs "The server does not allow clients to change payee information."));
   (10516, (bs "Wire beneficiary invalid", bs "ERROR", bs "The specified wire beneficiary does not exist or no longer exists."));
   (10517, (bs "Invalid payee name", bs "ERROR", bs "The server does not recognize the specified payee name."));
   (10518, (bs "Unknown model ID", bs "ERROR", bs "The specified model ID does not exist or no longer exists."));
   (10519, (bs "Invalid payee list ID", bs "ERROR", bs "The specified payee list ID does not exist or no longer exists."));
   (10600, (bs "Table type not found", bs "ERROR", bs "The specified table type is not recognized or does not exist."));
   (12250, (bs "Investment transaction download not supported", bs "WARN", bs "The server does not support investment transaction download."));
   (12251, (bs "Investment position download not supported", bs "WARN", bs "The server does not support investment position download."));
   (12252, (bs "Investment positions for specified date not available", bs "WARN", bs "The server does not support investment positions for the specified date."));
   (12253, (bs "Investment open order download not supported", bs "WARN", bs "The server does not support open order download."));
   (12254, (bs "Investment balances download not supported", bs "WARN", bs "The server does not support investment balances download."));
   (12255, (bs "401(k) not available for this account", bs "ERROR", bs "401(k) information requested from a non- 401(k) account."));
   (12500, (bs "One or more securities not found", bs "ERROR", bs "The server could not find the requested securities."));
   (13000, (bs "User ID & password will be sent out-of-band", bs "INFO", bs "The server will send the user ID and password via postal mail, e-mail, or another means. The accompanying message will provide details."));
   (13500, (bs "Unable to enroll user", bs "ERROR", bs "The server could not enroll the user."));
   (13501, (bs "User already enrolled", bs "ERROR", bs "The server has already enrolled the user."));
   (13502, (bs "Invalid service", bs "ERROR", bs "The server does not support the service <SVC> specified in the service-activation request."));
   (13503, (bs "Cannot change user information", bs "ERROR", bs "The server does not support the <CHGUSERINFORQ> request."));
   (13504, (bs "<FI> Missing or Invalid in <SONRQ>", bs "ERROR", bs "The FI requires the client to provide the <FI> aggregate in the <SONRQ> request, but either none was provided, or the one provided was invalid."));
   (14500, (bs "1099 forms not available", bs "ERROR", bs "1099 forms are not yet available for the tax year requested."));
   (14501, (bs "1099 forms not available for user ID", bs "ERROR", bs "This user does not have any 1099 forms available."));
   (14600, (bs "W2 forms not available", bs "ERROR", bs "W2 forms are not yet available for the tax year requested."));
   (14601, (bs "W2 forms not available for user ID", bs "ERROR", bs "The user does not have any W2 forms available."));
   (14700, (bs "1098 forms not available", bs "ERROR", bs "1098 forms are not yet available for the tax year requested."));
   (14701, (bs "1098 forms not available for user ID", bs "ERROR", bs "The user does not have any 1098 forms available."));
   (15000, (bs "Must change USERPASS", bs "INFO", bs "The user must change his or her <USERPASS> number as part of the next OFX request."));
   (15500, (bs "Signon invalid", bs "ERROR", bs "The user cannot signon because he or she entered an invalid user ID or password."));
   (15501, (bs "Customer account already in use", bs "ERROR", bs "The server allows only one connection at a time, and another user is already signed on.  Please try again later."));
   (15502, (bs "USERPASS lockout", bs "ERROR", bs "The server has received too many failed signon attempts for this user. Please call the FI’s technical support number."));
   (15503, (bs "Could not change USERPASS", bs "ERROR", bs "The server does not support the <PINCHRQ> request."));
   (15504, (bs "Could not provide random data", bs "ERROR", bs "The server could not generate random data as requested by the <CHALLENGERQ>."));
   (15505, (bs "Country system not supported", bs "ERROR", bs "The server does not support the country specified in the <COUNTRY> field of the <SONRQ> aggregate."));
   (15506, (bs "Empty signon not supported", bs "ERROR", bs "The server does not support signons not accompanied by some other transaction."));
   (15507, (bs "Signon invalid without supporting pin change request", bs "ERROR", bs "The OFX block associated with the signon does not contain a pin change request and should."));
   (15508, (bs "Transaction not authorized. ", bs "ERROR", bs "Current user is not authorized to perform this action on behalf of the <USERID>."));
   (15510, (bs "CLIENTUID error", bs "ERROR", bs "The CLIENTUID sent by the client was incorrect. User must register the Client UID."));
   (15511, (bs "MFA error", bs "ERROR", bs "User should contact financial institution."));
   (15512, (bs "AUTHTOKEN required", bs "ERROR", bs "User needs to contact financial institution to obtain AUTHTOKEN. Client should send it in the next request."));
   (15513, (bs "AUTHTOKEN invalid", bs "ERROR", bs "The AUTHTOKEN sent by the client was invalid."));
   (16500, (bs "HTML not allowed", bs "ERROR", bs "The server does not accept HTML formatting in the request."));
   (16501, (bs "Unknown mail To:", bs "ERROR", bs "The server was unable to send mail to the specified Internet address."));
   (16502, (bs "Invalid URL", bs "ERROR", bs "The server could not parse the URL."));
   (16503, (bs "Unable to get URL", bs "ERROR", bs "The server was unable to retrieve the information at this URL (e.g., an HTTP 400 or 500 series error)."))].
