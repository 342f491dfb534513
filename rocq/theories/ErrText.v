(** Model of the texts of errors: errInvalid.Error, response.go:482-488. *)
From Verif Require Import GoStr Document.

(** Error of errors.New and fmt.Errorf is the text; errInvalid.Error joins the
    texts of its parts. *)
Fixpoint err_text (e : goerr) : str :=
  match e with
  | EPlain t => t
  | EInvalid errs => bs "Validation failed: " ++ join (bs "; ") (map err_text errs)
  end.
