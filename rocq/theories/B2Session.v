(** Talking to Backblaze: which requests are made, and what is made of the answers.
    Models b2/src/lib.rs:7-206 and 256-301; CloudStore.v has what they do to the bucket. *)

From Verif Require Import Base Formats Json.

(** ** Answers

    Values as in Json.v; [JNull] also stands for booleans, fractions and negative numbers,
    which are none of the things asked for below. *)

(** serde_json's [value["key"]]: null if there is no such thing. *)
Definition jget (j : json) (key : bytes) : json :=
  match j with
  | JObj l => match list_find (fun kv : bytes * json => kv.1 = key) l with Some (_, kv) => kv.2 | None => JNull end
  | _ => JNull
  end.
Definition as_str (j : json) : option bytes := match j with JStr s => Some s | _ => None end.
Definition as_arr (j : json) : option (list json) := match j with JArr l => Some l | _ => None end.
Definition as_u64 (j : json) : option N := match j with JNum n => if (n <? 2 ^ 64)%N then Some n else None | _ => None end.

(** ** Requests

    Where to, the header "Authorization", the query, the names in the body or in other
    headers, and whether redirects are followed (lines 46-48). *)
Record request := mkRequest { rq_url : bytes; rq_auth : bytes; rq_query : list (bytes * bytes); rq_body : list (bytes * bytes); rq_redirects : bool }.

(** b2/src/lib.rs:7-17 *)
Inductive b2_error := Http | UnexpectedResponse | NotFound.
Inductive b2_result (A : Type) := Fine (a : A) | Fails (e : b2_error).
Arguments Fine {A} a.
Arguments Fails {A} e.

(** A function that makes requests.  One that fails (no connection, status 4xx or 5xx, no
    JSON in the body) ends it with [Http] (lines 19-23). *)
Inductive talk (A : Type) := Ends (r : b2_result A) | Asks (q : request) (k : json -> talk A).
Arguments Ends {A} r.
Arguments Asks {A} q k.
(** [talks t l r]: with the requests made and the answers they got it returns [r]. *)
Inductive talks {A : Type} : talk A -> list (request * option json) -> b2_result A -> Prop :=
| talks_end r : talks (Ends r) [] r
| talks_on q k j l r : talks (k j) l r -> talks (Asks q k) ((q, Some j) :: l) r
| talks_fails q k : talks (Asks q k) [(q, None)] (Fails Http).

(** [ok_or_else(unexpected)?] *)
Definition needs {A B : Type} (o : option A) (k : A -> talk B) : talk B :=
  match o with Some a => k a | None => Ends (Fails UnexpectedResponse) end.

(** ** b2/src/lib.rs:50-152 [Session::new]

    [base64] is that of the crate. *)
Record session := mkSession { se_token : bytes; se_url : bytes; se_upload_url : bytes; se_upload_token : bytes; se_bucket : bytes; se_bucket_id : bytes }.

Section login.
Variable base64 : bytes -> bytes.

Definition login_url : bytes := ascii_bytes "https://api.backblazeb2.com/b2api/v3/b2_authorize_account".
(** 54-55 *)
Definition basic (key_id application_key : bytes) : bytes :=
  ascii_bytes "Basic" ++ base64 (key_id ++ ascii_bytes ":" ++ application_key).
(** 90-101 *)
Definition rights : list bytes :=
  [ascii_bytes "listFiles"; ascii_bytes "readFiles"; ascii_bytes "writeFiles"; ascii_bytes "deleteFiles"].

(** 127-151 *)
Definition get_upload_url (token url bucket bucket_id : bytes) : talk session :=
  Asks (mkRequest (url ++ ascii_bytes "/b2api/v2/b2_get_upload_url") token [(ascii_bytes "bucketId", bucket_id)] [] true) (fun ur =>
  needs (as_str (jget ur (ascii_bytes "uploadUrl"))) (fun upload_url =>
  needs (as_str (jget ur (ascii_bytes "authorizationToken"))) (fun upload_token =>
  Ends (Fine (mkSession token url upload_url upload_token bucket bucket_id))))).
(** 103-125 *)
Definition find_bucket (account token url bucket : bytes) : talk session :=
  Asks (mkRequest (url ++ ascii_bytes "/b2api/v2/b2_list_buckets") token
    [(ascii_bytes "accountId", account); (ascii_bytes "bucketName", bucket)] [] true) (fun br =>
  match as_arr (jget br (ascii_bytes "buckets")) with
  | None => Ends (Fails NotFound)
  | Some bs =>
      match list_find (fun b => as_str (jget b (ascii_bytes "bucketName")) = Some bucket) bs with
      | None => Ends (Fails NotFound)
      | Some (_, b) => needs (as_str (jget b (ascii_bytes "bucketId"))) (get_upload_url token url bucket)
      end
  end).
(** 52-101 *)
Definition login (key_id application_key bucket : bytes) : talk session :=
  Asks (mkRequest login_url (basic key_id application_key) [] [] true) (fun v =>
  needs (as_str (jget v (ascii_bytes "accountId"))) (fun account =>
  needs (as_str (jget v (ascii_bytes "authorizationToken"))) (fun token =>
  let api := jget (jget v (ascii_bytes "apiInfo")) (ascii_bytes "storageApi") in
  needs (as_str (jget api (ascii_bytes "apiUrl"))) (fun url =>
  needs (as_arr (jget api (ascii_bytes "capabilities"))) (fun capes =>
  needs (mapM as_str capes) (fun capes =>
  if forallb (fun r => bool_decide (r ∈ capes)) rights then find_bucket account token url bucket
  else Ends (Fails UnexpectedResponse))))))).
End login.

(** ** b2/src/lib.rs:154-197 [list]: one page *)
Definition list_request (s : session) (prefix start : option bytes) : request :=
  mkRequest (se_url s ++ ascii_bytes "/b2api/v2/b2_list_file_names") (se_token s)
    ([(ascii_bytes "bucketId", se_bucket_id s); (ascii_bytes "maxFileCount", ascii_bytes "10000")] ++
     match prefix with Some p => [(ascii_bytes "prefix", p)] | None => [] end ++
     match start with Some n => [(ascii_bytes "startFileName", n)] | None => [] end) [] false.
(** 177-188; what is not an upload with a name and a length is passed over. *)
Definition listed_file (f : json) : option (bytes * N) :=
  if decide (as_str (jget f (ascii_bytes "action")) = Some (ascii_bytes "upload")) then
    n ← as_str (jget f (ascii_bytes "fileName"));
    l ← as_u64 (jget f (ascii_bytes "contentLength"));
    Some (n, l)
  else None.
(** The files of a page, and where the next one begins. *)
Definition read_page (lfn : json) : option (list (bytes * N) * option bytes) :=
  match as_arr (jget lfn (ascii_bytes "files")) with
  | Some files => Some (omap listed_file files, as_str (jget lfn (ascii_bytes "nextFileName")))
  | None => None
  end.
Inductive lists (s : session) (prefix : option bytes) : option bytes -> list (request * option json) -> b2_result (list (bytes * N)) -> Prop :=
| lists_fails start : lists s prefix start [(list_request s prefix start, None)] (Fails Http)
| lists_bad start j : read_page j = None -> lists s prefix start [(list_request s prefix start, Some j)] (Fails UnexpectedResponse)
| lists_last start j fs : read_page j = Some (fs, None) -> lists s prefix start [(list_request s prefix start, Some j)] (Fine fs)
| lists_next start j fs n l r : read_page j = Some (fs, Some n) -> lists s prefix (Some n) l r ->
    lists s prefix start ((list_request s prefix start, Some j) :: l) (match r with Fine fs' => Fine (fs ++ fs') | Fails e => Fails e end).

(** ** b2/src/lib.rs:199-206, 256-263: [get] and [put], without the bytes *)
Definition get_request (s : session) (name : bytes) : request :=
  mkRequest (se_url s ++ ascii_bytes "/file/" ++ se_bucket s ++ ascii_bytes "/" ++ name) (se_token s) [] [] false.
Definition put_request (s : session) (name : bytes) : request :=
  mkRequest (se_upload_url s) (se_upload_token s) [] [(ascii_bytes "X-Bz-File-Name", name)] false.

(** ** b2/src/lib.rs:268-301 [delete]

    Of the last answer only the status counts. *)
Definition remove_file (s : session) (name : bytes) : talk unit :=
  Asks (mkRequest (se_url s ++ ascii_bytes "/b2api/v2/b2_list_file_versions") (se_token s)
    [(ascii_bytes "bucketId", se_bucket_id s); (ascii_bytes "prefix", name)] [] false) (fun lfv =>
  needs (as_arr (jget lfv (ascii_bytes "files"))) (fun versions =>
  match versions with
  | [v] =>
      needs (as_str (jget v (ascii_bytes "fileId"))) (fun id =>
      Asks (mkRequest (se_url s ++ ascii_bytes "/b2api/v2/b2_delete_file_version") (se_token s) []
        [(ascii_bytes "fileName", name); (ascii_bytes "fileId", id)] true) (fun _ => Ends (Fine tt)))
  | _ => Ends (Fails UnexpectedResponse)
  end)).
