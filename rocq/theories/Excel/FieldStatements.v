(** Numbers and encryption headers of workbooks, used in the statements. *)
From Coq Require Import List NArith ZArith Bool Strings.String.
From Verif Require Import Lib.Bytes Lib.Text Excel.Records Magic.Spec Magic.DocBase Vba.Statements Excel.DocStatements Excel.FieldSpec.
Import ListNotations.
Local Open Scope N_scope.

(** The compiler of Windows *)
Definition on_windows (p : platform) : bool := sizeof_wchar p =? 2.

(** The document for a record with the given members after its type and length *)
Definition record_of (name : string) (d : bytes) (ms : list (list N * jval)) : jval :=
  JObj (jfield (B "Type") (B name) :: jmem "Length" (JNum (lenN d)) :: ms).
Definition element_of (name : string) (d : bytes) (es : list xnode) : xnode :=
  xel "Record" (xfield (B "Type") (B name) :: xnum "Length" (lenN d) :: es).

(** A number under a name *)
Definition jbits (d : bytes) (n : string) (pos width : N) : list N * jval := jmem n (JNum (bit_field d pos width)).
Definition xbits (d : bytes) (n : string) (pos width : N) : xnode := xnum n (bit_field d pos width).

(** ** Encryption headers, [MS-XLS] 2.4.117 and [MS-OFFCRYPTO] 2.3.2, 2.3.3 and 2.3.5.1 *)
Definition header_flags {A} (f : string -> N -> N -> A) (pos : N) : list A :=
  [f "Reserved1" pos 1; f "Reserved2" (pos + 1) 1; f "fCryptoAPI" (pos + 2) 1; f "fDocProps" (pos + 3) 1;
   f "fExternal" (pos + 4) 1; f "fAES" (pos + 5) 1; f "Unused" (pos + 6) 26]%string.
(** The numbers of the header from bit 144 on; [last] is where the second reserved number is
    taken from. *)
Definition header_numbers {A} (f : string -> N -> N -> A) (last : N) : list A :=
  [f "SizeExtra" 144 32; f "AlgID" 176 32; f "AlgIDHash" 208 32; f "KeySize" 240 32; f "ProviderType" 272 32;
   f "Reserved1" 304 32; f "Reserved2" last 32]%string.

Definition rc4_start_json (d : bytes) : list (list N * jval) :=
  [jfield (B "EncryptionType") (B "RC4"); jmem "RC4Version" (JObj [jbits d "Major" 16 16; jbits d "Minor" 32 16])].
Definition rc4_start_xml (d : bytes) : list xnode :=
  [xfield (B "EncryptionType") (B "RC4"); xel "RC4Version" [xbits d "Major" 16 16; xbits d "Minor" 32 16]].

(** The header with a name of a provider, a verifier at byte [v] and a hash; the texts are
    written with two digits for a byte. *)
Definition crypto_json (d : bytes) (last : N) (name : bytes) (v : N) (salt verifier hash : bytes) : list (list N * jval) :=
  rc4_start_json d ++
  [jmem "Flags" (JObj (header_flags (jbits d) 48));
   jmem "EncryptionHeader" (JObj (jmem "Flags" (JObj (header_flags (jbits d) 112)) :: header_numbers (jbits d) last));
   jtext (B "CSPName") name;
   jmem "EncryptionVerifierHeader" (JObj [jbits d "SaltSize" (8 * v) 32; jfield (B "Salt") salt;
     jfield (B "EncryptedVerifier") verifier; jbits d "VerifierHashSize" (8 * (v + 36)) 32]);
   jfield (B "EncryptedVerifierHash") hash].
Definition crypto_xml (d : bytes) (last : N) (name : bytes) (v : N) (salt verifier hash : bytes) : list xnode :=
  rc4_start_xml d ++
  [xel "Flags" (header_flags (xbits d) 48);
   xel "EncryptionHeader" (xel "Flags" (header_flags (xbits d) 112) :: header_numbers (xbits d) last);
   xescaped (B "CSPName") name;
   xel "EncryptionVerifierHeader" [xbits d "SaltSize" (8 * v) 32; xfield (B "Salt") salt;
     xfield (B "EncryptedVerifier") verifier; xbits d "VerifierHashSize" (8 * (v + 36)) 32];
   xfield (B "EncryptedVerifierHash") hash].
