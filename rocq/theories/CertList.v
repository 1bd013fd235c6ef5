(** Sets of certificates.

    Source: /repo/ua/certificate_list.go 9-119. A certificate is its DER bytes (x509.Certificate.Raw), of which
    x509.ParseCertificate makes the other fields; a certificate whose fields a caller changed is not modelled. *)
From Coq Require Import ZArith List Bool.
From Verif Require Import Bytes Text.
Import ListNotations.

Section X509.
(** RawSubject, RawIssuer, SubjectKeyId and AuthorityKeyId of a certificate, empty if it has none; whether
    x509.ParseCertificate accepts the bytes *)
Record fields : Type := mkFields { subject : bytes -> bytes; issuer : bytes -> bytes; subject_key : bytes -> bytes; authority_key : bytes -> bytes }.
Variable x : fields.
Variable parses : bytes -> bool.
(** A block of PEM text: is the type CERTIFICATE, the number of headers, the bytes *)
Record block : Type := mkBlock { b_certificate : bool; b_headers : nat; b_bytes : bytes }.
(** pem.Decode: the next block and the rest *)
Variable decode : bytes -> option (block * bytes).

(** 9-13: a map from string to []int, which may be nil *)
Definition index : Type := option (bytes -> list nat).
Record clist : Type := mkList { by_key : index; by_name : index; certs : list bytes }.
(** 16-21 NewCertificateList *)
Definition new_list : clist := mkList (Some (fun _ => [])) (Some (fun _ => [])) [].
(** CertificateList{} *)
Definition zero_list : clist := mkList None None [].

(** reading a map gives nil for what is not there, also if the map is nil *)
Definition entries (m : index) (k : bytes) : list nat := match m with Some f => f k | None => [] end.
(** appending to an entry: None is the panic of a nil map *)
Definition append_to (m : index) (k : bytes) (n : nat) : option index :=
  match m with
  | Some f => Some (Some (fun y => if bytes_eqb y k then f y ++ [n] else f y))
  | None => None
  end.

(** What a call comes to; a nil list is None *)
Inductive outcome (A : Type) : Type := Gives (a : A) | Panics.
Arguments Gives {A} _.
Arguments Panics {A}.

(** the loops of 30-32 and 37-39: an index out of range panics *)
Fixpoint at_all (l : list bytes) (ids : list nat) : outcome (list bytes) :=
  match ids with
  | [] => Gives []
  | j :: r =>
      match nth_error l j, at_all l r with
      | Some c, Gives cs => Gives (c :: cs)
      | _, _ => Panics
      end
  end.
(** 24-42 FindPotentialParents *)
Definition find_parents (s : option clist) (cert : bytes) : outcome (list bytes) :=
  match s with
  | None => Gives []
  | Some s =>
      match authority_key x cert with
      | _ :: _ => at_all (certs s) (entries (by_key s) (authority_key x cert))
      | [] => at_all (certs s) (entries (by_name s) (issuer x cert))
      end
  end.

(** 51-55: x509.Certificate.Equal compares Raw *)
Fixpoint any_equal (l : list bytes) (ids : list nat) (cert : bytes) : outcome bool :=
  match ids with
  | [] => Gives false
  | j :: r =>
      match nth_error l j with
      | None => Panics
      | Some c => if bytes_eqb c cert then Gives true else any_equal l r cert
      end
  end.
(** 45-58 Contains *)
Definition contains (s : option clist) (cert : bytes) : outcome bool :=
  match s with
  | None => Gives false
  | Some s => any_equal (certs s) (entries (by_name s) (subject x cert)) cert
  end.

(** 61-80 AddCert; [cert] None is nil *)
Definition add_cert (s : option clist) (cert : option bytes) : outcome clist :=
  match cert with
  | None => Panics
  | Some c =>
      match contains s c, s with
      | Panics, _ => Panics
      | Gives true, Some s => Gives s
      | Gives true, None => Panics
      | Gives false, None => Panics
      | Gives false, Some s =>
          let n := length (certs s) in
          let keyed :=
            match subject_key x c with
            | _ :: _ => append_to (by_key s) (subject_key x c) n
            | [] => Some (by_key s)
            end in
          match keyed, append_to (by_name s) (subject x c) n with
          | Some k, Some m => Gives (mkList k m (certs s ++ [c]))
          | _, _ => Panics
          end
      end
  end.

(** 88-109 AppendCertsFromPEM; None: the fuel is used up *)
Fixpoint append_pem (fuel : nat) (s : clist) (text : bytes) (ok : bool) : option (outcome (clist * bool)) :=
  match text with
  | [] => Some (Gives (s, ok))
  | _ :: _ =>
      match fuel with
      | O => None
      | S f =>
          match decode text with
          | None => Some (Gives (s, ok))
          | Some (b, rest) =>
              if negb (b_certificate b) || negb (Nat.eqb (b_headers b) 0) then append_pem f s rest ok
              else if negb (parses (b_bytes b)) then append_pem f s rest ok
              else match add_cert (Some s) (Some (b_bytes b)) with
                   | Panics => Some Panics
                   | Gives s1 => append_pem f s1 rest true
                   end
          end
      end
  end.

(** 113-119 Subjects *)
Definition subjects (s : clist) : list bytes := map (subject x) (certs s).

(** Calls one after the other *)
Inductive op : Type := Add (cert : bytes) | AppendPem (text : bytes).
Definition step (s : clist) (o : op) : option (outcome clist) :=
  match o with
  | Add c => Some (add_cert (Some s) (Some c))
  | AppendPem text =>
      match append_pem (length text) s text false with
      | None => None
      | Some Panics => Some Panics
      | Some (Gives (s1, _)) => Some (Gives s1)
      end
  end.
Fixpoint run (s : clist) (l : list op) : option (outcome clist) :=
  match l with
  | [] => Some (Gives s)
  | o :: r =>
      match step s o with
      | Some (Gives s1) => run s1 r
      | x => x
      end
  end.
End X509.
Arguments Gives {A} _.
Arguments Panics {A}.
