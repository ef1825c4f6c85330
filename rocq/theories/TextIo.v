(** * Model: program texts through links, files and the browser's storage
    The "test this code" button of the documentation (docs/src/components/Code/Code.tsx:69-74),
    the query read by the editor (mpp-front/src/pages/Coder/index.tsx:12-15), download and
    open (mpp-front/src/lib/utils.ts:21-56, pages/Coder/components/CodeEditor.tsx:131-145),
    and which text the editor starts with (CodeEditor.tsx:36-48, 60-61).
    The browser's encoders and decoders are those of the Encoding and URL standards. *)
From Coq Require Import String ZArith NArith List Bool.
From Verif Require Import JsStr AsmTable Asm Prog Api Front Editor Settings.
Import ListNotations.
Open Scope list_scope.
Open Scope N_scope.

(** ** Code units, scalar values, bytes *)
Definition is_high (u : N) : bool := (0xD800 <=? u) && (u <=? 0xDBFF).
Definition is_low (u : N) : bool := (0xDC00 <=? u) && (u <=? 0xDFFF).
Definition REPLACEMENT : N := 0xFFFD.
(** Conversion of a string to scalar values: a surrogate on its own is replaced. *)
Fixpoint scalars (s : str) : list N :=
  match s with
  | [] => []
  | u :: r =>
    if is_high u then
      match r with
      | v :: r' => if is_low v then (0x10000 + (u - 0xD800) * 1024 + (v - 0xDC00)) :: scalars r' else REPLACEMENT :: scalars r
      | [] => [REPLACEMENT]
      end
    else if is_low u then REPLACEMENT :: scalars r
    else u :: scalars r
  end.
(** Back to code units. *)
Definition units (c : N) : str :=
  if c <? 0x10000 then [c] else [0xD800 + (c - 0x10000) / 1024; 0xDC00 + (c - 0x10000) mod 1024].
(** UTF-8 encoder. *)
Definition utf8 (c : N) : list N :=
  if c <? 0x80 then [c]
  else if c <? 0x800 then [0xC0 + c / 64; 0x80 + c mod 64]
  else if c <? 0x10000 then [0xE0 + c / 4096; 0x80 + c / 64 mod 64; 0x80 + c mod 64]
  else [0xF0 + c / 262144; 0x80 + c / 4096 mod 64; 0x80 + c / 64 mod 64; 0x80 + c mod 64].
(** UTF-8 decoder: bytes still needed, code point so far, bounds of the next byte. *)
Record dec := mkDec { needed : nat; point : N; lower : N; upper : N }.
Definition start : dec := mkDec 0 0 0x80 0xBF.
(** A first byte. *)
Definition lead (b : N) : list N * dec :=
  if b <=? 0x7F then ([b], start)
  else if (0xC2 <=? b) && (b <=? 0xDF) then ([], mkDec 1 (b - 0xC0) 0x80 0xBF)
  else if (0xE0 <=? b) && (b <=? 0xEF) then
    ([], mkDec 2 (b - 0xE0) (if b =? 0xE0 then 0xA0 else 0x80) (if b =? 0xED then 0x9F else 0xBF))
  else if (0xF0 <=? b) && (b <=? 0xF4) then
    ([], mkDec 3 (b - 0xF0) (if b =? 0xF0 then 0x90 else 0x80) (if b =? 0xF4 then 0x8F else 0xBF))
  else ([REPLACEMENT], start).
Definition feed (b : N) (d : dec) : list N * dec :=
  match needed d with
  | O => lead b
  | S n =>
    if (lower d <=? b) && (b <=? upper d) then
      let c := point d * 64 + (b - 0x80) in
      match n with O => ([c], start) | S _ => ([], mkDec n c 0x80 0xBF) end
    else (REPLACEMENT :: fst (lead b), snd (lead b))
  end.
Fixpoint decode (d : dec) (bs : list N) : list N :=
  match bs with
  | [] => match needed d with O => [] | S _ => [REPLACEMENT] end
  | b :: r => fst (feed b d) ++ decode (snd (feed b d)) r
  end.
Definition encode_text (s : str) : list N := flat_map utf8 (scalars s).
Definition decode_text (bs : list N) : str := flat_map units (decode start bs).

(** ** The link of the documentation's button *)
(** Bytes [URLSearchParams] writes as they are: letters, digits and [*-._]. *)
Definition unreserved (b : N) : bool :=
  ((48 <=? b) && (b <=? 57)) || ((65 <=? b) && (b <=? 90)) || ((97 <=? b) && (b <=? 122))
  || (b =? 42) || (b =? 45) || (b =? 46) || (b =? 95).
Definition hex_digit (n : N) : N := if n <? 10 then 48 + n else 55 + n.
Definition percent (b : N) : str :=
  if unreserved b then [b] else if b =? 32 then [43] else [37; hex_digit (b / 16); hex_digit (b mod 16)].
Definition form_encode (s : str) : str := flat_map percent (encode_text s).
(** Code.tsx:69-74: the query of the address opened ([url.searchParams.set("code", code)]). *)
Definition docs_query (code : str) : str := s2l "?code=" ++ form_encode code.

(** ** The query read by the editor *)
Definition hex_value (u : N) : option N :=
  if (48 <=? u) && (u <=? 57) then Some (u - 48)
  else if (65 <=? u) && (u <=? 70) then Some (u - 55)
  else if (97 <=? u) && (u <=? 102) then Some (u - 87)
  else None.
(** Percent-decoding, after [+] has become a space. *)
Fixpoint unpercent (bs : list N) : list N :=
  match bs with
  | [] => []
  | b :: r =>
    let b := if b =? 43 then 32 else b in
    if b =? 37 then
      match r with
      | x :: y :: r' => match hex_value x, hex_value y with
                        | Some i, Some j => (16 * i + j) :: unpercent r'
                        | _, _ => b :: unpercent r
                        end
      | _ => b :: unpercent r
      end
    else b :: unpercent r
  end.
Definition form_decode (bs : list N) : str := decode_text (unpercent bs).
(** One [name=value] of a query; without [=] the value is empty. *)
Definition field (p : list N) : str * str :=
  match index_of 61 p with
  | Some i => (form_decode (firstn i p), form_decode (skipn (S i) p))
  | None => (form_decode p, [])
  end.
(** [new URLSearchParams(search)]. *)
Definition search_params (search : str) : list (str * str) :=
  let q := match search with u :: r => if u =? 63 then r else search | [] => [] end in
  map field (filter (fun p => match p with [] => false | _ => true end) (split 38 (encode_text q))).
(** index.tsx:12-13: [searchParams.get("code") || ""]. *)
Definition initial_code (search : str) : str :=
  match find (fun f => str_eqb (fst f) (s2l "code")) (search_params search) with Some f => snd f | None => [] end.

(** ** The text the editor starts with *)
(** CodeEditor.tsx:36-48 and the effect of lines 60-61: the text shown and the storage
    after the editor has appeared. *)
Definition editor_start (search : str) (st : storage) : str * storage :=
  let (old, st) := get_stored K_code (V_str []) st in
  let old := match old with V_str t => t | _ => [] end in
  let t := match initial_code search with [] => old | c => from_url c end in
  (t, set_stored K_code (V_str t) st).
(** The text becomes [t] (typing, an example, a file): CodeEditor.tsx:105-107, 127-129,
    141-145; the effect stores a changed text. *)
Definition editor_change (t : str) (e : str * storage) : str * storage :=
  if str_eqb t (fst e) then e else (t, set_stored K_code (V_str t) (snd e)).

(** ** Files *)
(** utils.ts:44-53 with CodeEditor.tsx:131-139: the bytes of the file saved.  The hook is
    called without initial content. *)
Definition download (t : str) : list N := encode_text t.
(** utils.ts:22-42 with CodeEditor.tsx:141-145: [readAsText] drops a byte-order mark.
    (Left out: files marked as UTF-16, which the page never writes.) *)
Definition open_file (bs : list N) : str :=
  match bs with
  | a :: b :: c :: r => if (a =? 0xEF) && (b =? 0xBB) && (c =? 0xBF) then decode_text r else decode_text bs
  | _ => decode_text bs
  end.
