(** C64-C66, C73, C74: labels, caches and patterns in scrape.py. *)
From Coq Require Import Lia.
From Verif Require Import Scrape_Proofs.
Open Scope string_scope.

Definition nul : ascii := ascii_of_nat 0.
Definition crlf : string := String (ascii_of_nat 13) (String (ascii_of_nat 10) "").
(** The two bytes of a small e with acute. *)
Definition e_acute : string := String (ascii_of_nat 195) (String (ascii_of_nat 169) "").
Definition ex_world (content : string) : world := {| disk := fun n => if String.eqb n "a" then Some content else None; opened := [] |}.

(** ** C64: trimming labels *)

(** Exactly one of three: cut after the first PVL end, else after the first three
    NUL bytes, else everything or an error. *)
Theorem C64_trim : forall head r,
  (exists a b, cut_after pvl_end head a b /\ trim_head head r = decode a) \/
  (~ occurs pvl_end head /\ exists a b, cut_after nulls_end head a b /\ trim_head head r = decode a) \/
  (~ occurs pvl_end head /\ ~ occurs nulls_end head /\ trim_head head r = if r then Exc ValueError else decode head).
Proof. exact trim_exact. Qed.
Print Assumptions C64_trim.

(** Decoding: the same text, or an error if the bytes are not text. *)
Theorem C64_decode : forall s, (is_text s /\ decode s = Ok s) \/ (~ is_text s /\ decode s = Exc UnicodeDecodeError).
Proof. exact decode_exact. Qed.
Print Assumptions C64_decode.

(** A file is opened and its first bytes used; nothing else of it matters. *)
Theorem C64_file : forall l n r w, trim_label l n r w =
  match disk w (name_of l) with
  | None => (Exc FileNotFoundError, w)
  | Some c => (trim_head (read_n n c) r, {| disk := disk w; opened := name_of l :: opened w |})
  end.
Proof. exact trim_file. Qed.
Print Assumptions C64_file.
Theorem C64_first_bytes : forall n s, exists r, s = (read_n n s) ++ r /\
  String.length (read_n n s) = if (n <? 0)%Z then String.length s else Nat.min (Z.to_nat n) (String.length s).
Proof. exact read_spec. Qed.
Print Assumptions C64_first_bytes.

(** If an ending is found, a text file gives the beginning of its text, even if
    the size limit falls inside a character. *)
Theorem C64_text : forall n s r, is_text s -> occurs pvl_end (read_n n s) \/ occurs nulls_end (read_n n s) ->
  exists a b, trim_head (read_n n s) r = Ok a /\ read_n n s = a ++ b.
Proof. exact trim_text. Qed.
Print Assumptions C64_text.

(** Without one it may fail. *)
Theorem C64_text_refuted : exists s n, is_text s /\ trim_head (read_n n s) false = Exc UnicodeDecodeError.
Proof. exists ("caf" ++ e_acute), 4%Z. split; [|reflexivity]. now apply decode_ok. Qed.
Print Assumptions C64_text_refuted.

(** A reader is used from where it is, and closed, even for an error: a second use
    is an error. *)
Theorem C64_reader : forall r n f, trim_reader r n f =
  (match r with Open s => trim_head (read_n n s) f | Closed => Exc ValueError end, Closed).
Proof. exact trim_reader_ok. Qed.
Print Assumptions C64_reader.

(** The END need not be a statement of its own, and a PVL end anywhere (say in the
    data) wins over an earlier NUL end. *)
Theorem C64_statement_refuted : exists a b, trim_head (a ++ b) true = Ok a /\ a = "LEGEND" ++ crlf /\ ends_with ("END" ++ crlf) b.
Proof. exists ("LEGEND" ++ crlf), ("X = 1" ++ crlf ++ "END" ++ crlf). split; [reflexivity|]. split; [reflexivity|]. exists ("X = 1" ++ crlf). reflexivity. Qed.
Print Assumptions C64_statement_refuted.
Theorem C64_earlier_nulls_refuted : exists a b r, cut_after nulls_end (a ++ b) a b /\ trim_head (a ++ b) false = Ok r /\ String.length a < String.length r.
Proof.
  exists ("x" ++ nulls_end), ("z" ++ pvl_end), ("x" ++ nulls_end ++ "z" ++ pvl_end). split; [apply cut_iff; reflexivity|]. split; [reflexivity|]. cbn. lia.
Qed.
Print Assumptions C64_earlier_nulls_refuted.

Example C64_pvl : fst (trim_label (LStr "a") 100 true (ex_world ("X" ++ crlf ++ pvl_end ++ String nul "data"))) = Ok ("X" ++ crlf ++ pvl_end).
Proof. reflexivity. Qed.
Example C64_none : trim_head "abc" true = Exc ValueError /\ trim_head "abc" false = Ok "abc".
Proof. split; reflexivity. Qed.
Example C64_split : is_text ("END" ++ crlf ++ e_acute) /\ trim_head (read_n 6 ("END" ++ crlf ++ e_acute)) true = Ok ("END" ++ crlf).
Proof. split; [now apply decode_ok|reflexivity]. Qed.

(** ** C65: cached readers *)

(** After any calls and changes of the files: the first answer so far, without
    reading, else what the function now gives; errors are not kept. *)
Theorem C65_first_answer : forall A B W (aeqb : A -> A -> bool) (f : A -> eff W B), decides aeqb ->
  forall h w os m w' a, happens aeqb f h ([], w) = (os, (m, w')) ->
  match first_answer aeqb a os with
  | Some b => cached aeqb f a (m, w') = (Ok b, (m, w'))
  | None => fst (cached aeqb f a (m, w')) = fst (f a w') /\ snd (snd (cached aeqb f a (m, w'))) = snd (f a w')
  end.
Proof. exact @cached_ok. Qed.
Print Assumptions C65_first_answer.
(** In particular for the label readers; a name and a Path are different. *)
Theorem C65_loader : forall h w os m w' l, happens label_eqb (fun l => get_label_text l default_size) h ([], w) = (os, (m, w')) ->
  match first_answer label_eqb l os with
  | Some b => cached_label_loader l (m, w') = (Ok b, (m, w'))
  | None => fst (cached_label_loader l (m, w')) = fst (get_label_text l default_size w')
  end.
Proof. exact loader_ok. Qed.
Print Assumptions C65_loader.
Theorem C65_trimmer : forall h w os m w' l, happens label_eqb (fun l => trim_label l max_label_size false) h ([], w) = (os, (m, w')) ->
  match first_answer label_eqb l os with
  | Some b => cached_label_trimmer l (m, w') = (Ok b, (m, w'))
  | None => fst (cached_label_trimmer l (m, w')) = fst (trim_label l max_label_size false w')
  end.
Proof. exact trimmer_ok. Qed.
Print Assumptions C65_trimmer.
(** And for listings and for whether there is a file, each by its own name. *)
Theorem C65_listing : forall listdir h w os m w' d, happens String.eqb listdir h ([], w) = (os, (m, w')) ->
  match first_answer String.eqb d os with
  | Some l => cached_ls listdir d (m, w') = (Ok l, (m, w'))
  | None => fst (cached_ls listdir d (m, w')) = fst (listdir d w')
  end.
Proof.
  intros listdir h w os m w' d H. assert (G := cached_ok String.eqb _ string_decides h w os m w' d H). destruct (first_answer String.eqb d os); [exact G|apply G].
Qed.
Print Assumptions C65_listing.
Theorem C65_existence : forall h w os m w' n, happens String.eqb exists_ h ([], w) = (os, (m, w')) ->
  match first_answer String.eqb n os with
  | Some b => cached_exists n (m, w') = (Ok b, (m, w'))
  | None => fst (cached_exists n (m, w')) = Ok (match disk w' n with Some _ => true | None => false end)
  end.
Proof.
  intros h w os m w' n H. assert (G := cached_ok String.eqb _ string_decides h w os m w' n H). destruct (first_answer String.eqb n os); [exact G|apply G].
Qed.
Print Assumptions C65_existence.
Example C65_listing_ex : exists listdir os m w', happens String.eqb listdir [Call "d"; Call "e"; Meanwhile (fun _ => ex_world "new"); Call "d"] ([], ex_world "") = (os, (m, w')) /\
  first_answer String.eqb "d" os = Some ["d"; ""] /\ first_answer String.eqb "e" os = Some ["e"; ""] /\ fst (cached_ls listdir "f" (m, w')) = Ok ["f"; "new"].
Proof.
  exists (fun d w => (Ok [d; match disk w "a" with Some t => t | None => "" end], w)). eexists _, _, _. split; [reflexivity|]. repeat split.
Qed.

(** How much they read: 35592 bytes, and 500 KiB. *)
Theorem C65_sizes : forall l w a b, disk w (name_of l) = Some (a ++ b) ->
  (Z.of_nat (String.length a) = 35592%Z -> is_text a -> fst (cached_label_loader l ([], w)) = Ok a) /\
  (Z.of_nat (String.length a) = (500 * 1024)%Z -> fst (cached_label_trimmer l ([], w)) = trim_head a false).
Proof. exact sizes_ok. Qed.
Print Assumptions C65_sizes.
Definition ex_long (n : nat) : string := string_of_list_ascii (repeat "."%char n).
Lemma ex_long_ok n : String.length (ex_long n) = n /\ is_text (ex_long n).
Proof.
  split; [induction n as [|n IH]; cbn; auto|]. exists (repeat 46%N n). split.
  - induction n as [|n IH]; cbn; constructor; auto. now left.
  - induction n as [|n IH]; [reflexivity|]. cbn [repeat text_of]. rewrite <- IH. reflexivity.
Qed.
Example C65_sizes_ex : let a := ex_long (Z.to_nat 35592) in
  disk (ex_world (a ++ "more")) (name_of (LStr "a")) = Some (a ++ "more") /\ Z.of_nat (String.length a) = 35592%Z /\ is_text a.
Proof. cbv zeta. split; [reflexivity|]. destruct (ex_long_ok (Z.to_nat 35592)) as [E T]. split; [rewrite E; apply Z2Nat.id; lia|exact T]. Qed.

(** A file is read without error at most once. *)
Theorem C65_one_read : forall h w os m w', happens label_eqb (fun l => get_label_text l default_size) h ([], w) = (os, (m, w')) ->
  NoDup (map fst m) /\ forall l b, In (l, b) m <-> first_answer label_eqb l os = Some b.
Proof. exact one_read. Qed.
Print Assumptions C65_one_read.

(** scrape_from_file: whatever the files become, all results for a label come from
    one text of it. *)
Theorem C65_one_text : forall pattern V (peqb : pattern -> pattern -> bool), decides peqb ->
  forall search literal_eval text_value (none : V) h w, exists text, forall l p v,
  In ((l, p), Ok v) (fst (happens (scraped_eqb peqb) (scrape_uncached search literal_eval text_value none) (asks h) ([], ([], w)))) ->
  exists t, text l = Some t /\ make_scraper search literal_eval text_value none t p = Ok v.
Proof. exact @one_text. Qed.
Print Assumptions C65_one_text.

(** So they may be stale: a file that has appeared still does not exist ... *)
Theorem C65_fresh_refuted : exists h os m w', happens String.eqb exists_ h ([], ex_world "") = (os, (m, w')) /\
  fst (exists_ "b" w') = Ok true /\ fst (cached_exists "b" (m, w')) = Ok false.
Proof.
  exists [Call "b"; Meanwhile (fun w => {| disk := fun n => if String.eqb n "b" then Some "" else disk w n; opened := opened w |})].
  eexists _, _, _. split; [reflexivity|]. split; reflexivity.
Qed.
Print Assumptions C65_fresh_refuted.
(** ... and a caller that changes the list it was given changes it for all. *)
Theorem C65_own_list_refuted : exists listdir os m w',
  (forall w, listdir "d" w = (Ok ["x"; "y"], w)) /\
  happens String.eqb listdir [Call "d"] ([], ex_world "") = (os, (m, w')) /\
  fst (cached_ls listdir "d" (modify String.eqb "d" (@List.rev string) (m, w'))) = Ok ["y"; "x"].
Proof. exists (fun _ w => (Ok ["x"; "y"], w)). eexists _, _, _. split; [reflexivity|]. split; reflexivity. Qed.
Print Assumptions C65_own_list_refuted.

Definition ex_history : list (event label world) :=
  [Call (LStr "b"); Call (LStr "a"); Meanwhile (fun _ => ex_world "new"); Call (LStr "a"); Call (LPath "a")].
Example C65_ex : fst (happens label_eqb (fun l => get_label_text l default_size) ex_history ([], ex_world "old")) =
  [(LStr "b", Exc FileNotFoundError); (LStr "a", Ok "old"); (LStr "a", Ok "old"); (LPath "a", Ok "new")].
Proof. reflexivity. Qed.
Example C65_decides : decides label_eqb /\ decides String.eqb.
Proof. split; [exact label_decides|exact string_decides]. Qed.

(** ** C66: patterns *)

(** The digits by which frame numbers are found. *)
Theorem C66_digit : forall c, digit c = true <-> In c (list_ascii_of_string "0123456789").
Proof.
  intro c. split; [|cbn; intuition subst; reflexivity]. destruct c as [[] [] [] [] [] [] [] []]; vm_compute; try discriminate; tauto.
Qed.
Print Assumptions C66_digit.

(** A pattern gives None if it is not found or its group took no part, else the
    group read as a literal if it is one, else as text.  Patterns without a group
    are IndexErrors, and errors of literal_eval other than ValueError and
    SyntaxError escape. *)
Theorem C66_scraper : forall pattern V search literal_eval text_value (none : V) text (p : pattern) r,
  make_scraper search literal_eval text_value none text p = r <->
  match search p text with
  | Exc e => r = Exc e
  | Ok None => r = Ok none
  | Ok (Some NoGroup) => r = Exc IndexError
  | Ok (Some (Group None)) => r = Ok none
  | Ok (Some (Group (Some g))) =>
      match literal_eval g with
      | Ok v => r = Ok v
      | Exc e => (In e [ValueError; UnicodeDecodeError; SyntaxError] /\ r = Ok (text_value g)) \/
                 (~ In e [ValueError; UnicodeDecodeError; SyntaxError] /\ r = Exc e)
      end
  end.
Proof. exact @scraper_ok. Qed.
Print Assumptions C66_scraper.

(** Every field asked for, from the same text, and the supplemental entries over
    them. *)
Theorem C66_fields : forall pattern V search literal_eval text_value (none : V) W l (regex : dict pattern)
    (supp : option (label -> string -> eff W (option (dict V)))) loader w d w',
  wfd regex = true -> scrape_patterns search literal_eval text_value none l regex supp loader w = (Ok d, w') ->
  exists text w1 extra, loader l w = (Ok text, w1) /\
    match supp with None => extra = [] /\ w' = w1 | Some g => g l text w1 = (Ok (Some extra), w') end /\
    forall k, dget d k = match dget (rev extra) k with
                         | Some v => Some v
                         | None => match dget regex k with
                                   | Some p => match make_scraper search literal_eval text_value none text p with Ok v => Some v | Exc _ => None end
                                   | None => None
                                   end
                         end.
Proof. exact @patterns_ok. Qed.
Print Assumptions C66_fields.

(** Without a supplemental function the fields are in the order given. *)
Theorem C66_order : forall pattern V search literal_eval text_value (none : V) W l (regex : dict pattern) (loader : label -> eff W string) w d w',
  wfd regex = true -> scrape_patterns search literal_eval text_value none l regex None loader w = (Ok d, w') -> map fst d = map fst regex.
Proof. exact @patterns_order. Qed.
Print Assumptions C66_order.

(** When it raises, and what. *)
Theorem C66_raises_iff : forall pattern V search literal_eval text_value (none : V) W l (regex : dict pattern)
    (supp : option (label -> string -> eff W (option (dict V)))) loader w e w',
  scrape_patterns search literal_eval text_value none l regex supp loader w = (Exc e, w') <->
  loader l w = (Exc e, w') \/
  exists text w1, loader l w = (Ok text, w1) /\
    ((exists k p before after, regex = (before ++ (k, p) :: after)%list /\
        make_scraper search literal_eval text_value none text p = Exc e /\ w' = w1 /\
        Forall (fun fp => exists v, make_scraper search literal_eval text_value none text (snd fp) = Ok v) before) \/
     (Forall (fun fp => exists v, make_scraper search literal_eval text_value none text (snd fp) = Ok v) regex /\
      exists g, supp = Some g /\ (g l text w1 = (Exc e, w') \/ (g l text w1 = (Ok None, w') /\ e = TypeError)))).
Proof. exact @patterns_raise. Qed.
Print Assumptions C66_raises_iff.

(** One result for each file, in order; an error stops it. *)
Theorem C66_bulk : forall W F D (f : F -> eff W D) files w ds w',
  bulk_scrape_metadata files f w = (Ok ds, w') <-> one_by_one f files w ds w'.
Proof. exact @bulk_ok. Qed.
Print Assumptions C66_bulk.
Theorem C66_bulk_raises : forall W F D (f : F -> eff W D) files w e w', bulk_scrape_metadata files f w = (Exc e, w') <->
  exists a x b ds w1, files = (a ++ x :: b)%list /\ one_by_one f a w ds w1 /\ f x w1 = (Exc e, w').
Proof. exact @bulk_raise. Qed.
Print Assumptions C66_bulk_raises.

(** Patterns for the examples: what follows the given text up to the end. *)
Definition ex_search (p text : string) : res (option match_) :=
  Ok (match cut p text with Some (_, b) => Some (Group (Some b)) | None => None end).
Definition ex_literal (s : string) : res (option string) := if String.eqb s "7" then Ok (Some "seven") else Exc SyntaxError.
Definition ex_scrape := scrape_patterns (W := unit) ex_search ex_literal (fun s => Some s) None (LStr "a")
  [(KStr "u", "U="); (KStr "v", "V="); (KStr "w", "W=")].
Example C66_some : wfd [(KStr "u", "U="); (KStr "v", "V="); (KStr "w", "W=")] = true /\
  fst (ex_scrape None (fun _ => eret "U=V=7") tt) = Ok [(KStr "u", Some "V=7"); (KStr "v", Some "seven"); (KStr "w", None)].
Proof. split; reflexivity. Qed.
Example C66_more : fst (ex_scrape (Some (fun _ _ => eret (Some [(KStr "w", Some "."); (KStr "x", None)]))) (fun _ => eret "U=V=7") tt) =
  Ok [(KStr "u", Some "V=7"); (KStr "v", Some "seven"); (KStr "w", Some "."); (KStr "x", None)].
Proof. reflexivity. Qed.
Example C66_not_mapping : fst (ex_scrape (Some (fun _ _ => eret None)) (fun _ => eret "U=V=7") tt) = Exc TypeError.
Proof. reflexivity. Qed.
Example C66_files : bulk_scrape_metadata ["x"; "y"] (fun s n => (Ok (s, n), S n)) 0 = (Ok [("x", 0); ("y", 1)], 2).
Proof. reflexivity. Qed.

(** ** C73: scrape_subframe *)

(** An AttributeError exactly if there is no block. *)
Theorem C73_no_block : forall text, scrape_subframe text = Exc AttributeError <->
  ~ exists x y z, text = x ++ "SUBFRAME" ++ y ++ "END" ++ z.
Proof. exact subframe_attribute. Qed.
Print Assumptions C73_no_block.

(** Else the block is from the first SUBFRAME to the first END after it, and the
    result the runs of digits in it, as numbers. *)
Theorem C73_numbers : forall text a rest m after l,
  cut_after "SUBFRAME" text a rest -> cut_after "END" rest m after -> numbered ("SUBFRAME" ++ m) l ->
  (Forall proper l -> exists zs, Forall2 decimal l zs /\
     match zs with
     | [] => scrape_subframe text = Exc SyntaxError
     | [z] => scrape_subframe text = Ok (One z)
     | _ => scrape_subframe text = Ok (Many zs)
     end) /\
  (~ Forall proper l -> scrape_subframe text = Exc SyntaxError).
Proof. exact subframe_numbers. Qed.
Print Assumptions C73_numbers.
(** Every text is of this form, in one way. *)
Theorem C73_runs : forall s, exists l, numbered s l /\ forall l', numbered s l' -> l' = l.
Proof. exact numbered_one. Qed.
Print Assumptions C73_runs.

(** Digits in names count; so four fields may give more than four numbers. *)
Theorem C73_fields_refuted : exists text, scrape_subframe text = Ok (Many [1; 10; 2; 20]%Z) /\
  text = "SUBFRAME" ++ crlf ++ "CAM1_LINE = 10" ++ crlf ++ "CAM2_LINE = 20" ++ crlf ++ "END".
Proof. eexists. split; [|reflexivity]. reflexivity. Qed.
Print Assumptions C73_fields_refuted.
(** A single number is not a tuple, and decimals come apart. *)
Theorem C73_tuple_refuted : exists text z, scrape_subframe text = Ok (One z).
Proof. exists "SUBFRAME 7 END", 7%Z. reflexivity. Qed.
Print Assumptions C73_tuple_refuted.
Example C73_decimals : scrape_subframe "SUBFRAME 1.5 -2 END" = Ok (Many [1; 5; 2]%Z).
Proof. reflexivity. Qed.
Example C73_ex : scrape_subframe "X 3 SUBFRAME A=1 B=1 C=1200 D=1648 END 9" = Ok (Many [1; 1; 1200; 1648]%Z).
Proof. reflexivity. Qed.
Example C73_zero : scrape_subframe "SUBFRAME 007 END" = Exc SyntaxError /\ scrape_subframe "SUBFRAME 00,0 END" = Ok (Many [0; 0]%Z).
Proof. split; reflexivity. Qed.
Example C73_block : exists m, cut_after "SUBFRAME" "SUBFRAME A=12 END" "SUBFRAME" m /\ cut_after "END" m " A=12 END" "" /\
  numbered ("SUBFRAME" ++ " A=12 END") ["12"] /\ Forall proper ["12"].
Proof.
  exists " A=12 END". split; [apply cut_iff; reflexivity|]. split; [apply cut_iff; reflexivity|]. split; [apply numbered_iff; reflexivity|].
  repeat constructor. exists "1"%char, "2". auto.
Qed.

(** ** C74: the beginning of a text *)

(** get_label_text of a text file: its first bytes, if they are whole characters,
    else an error. *)
Theorem C74_whole_characters : forall cs l n w c, Forall scalar cs -> disk w (name_of l) = Some c -> c = text_of cs ->
  ((exists k, read_n n c = text_of (firstn k cs)) /\ fst (get_label_text l n w) = Ok (read_n n c)) \/
  (~ (exists k, read_n n c = text_of (firstn k cs)) /\ fst (get_label_text l n w) = Exc UnicodeDecodeError).
Proof. exact label_cut. Qed.
Print Assumptions C74_whole_characters.
(** So a file of plain ASCII is always read. *)
Theorem C74_ascii : forall l n w c, disk w (name_of l) = Some c -> all_chars (in_range 0 127) c = true ->
  fst (get_label_text l n w) = Ok (read_n n c).
Proof. exact label_ascii. Qed.
Print Assumptions C74_ascii.
(** A negative size reads all. *)
Theorem C74_all : forall l n w c, (n < 0)%Z -> disk w (name_of l) = Some c -> is_text c -> fst (get_label_text l n w) = Ok c.
Proof. exact label_all. Qed.
Print Assumptions C74_all.
Theorem C74_file : forall l n w, get_label_text l n w =
  match disk w (name_of l) with
  | None => (Exc FileNotFoundError, w)
  | Some c => (decode (read_n n c), {| disk := disk w; opened := name_of l :: opened w |})
  end.
Proof. exact label_text. Qed.
Print Assumptions C74_file.

(** A text file may be unreadable, depending on the size. *)
Theorem C74_readable_refuted : exists w, (exists c, disk w "a" = Some c /\ is_text c) /\
  fst (get_label_text (LStr "a") 4 w) = Exc UnicodeDecodeError /\ fst (get_label_text (LStr "a") 5 w) = Ok ("caf" ++ e_acute).
Proof.
  exists (ex_world ("caf" ++ e_acute ++ "!")). split; [eexists; split; [reflexivity|]; now apply decode_ok|]. split; reflexivity.
Qed.
Print Assumptions C74_readable_refuted.
Example C74_scalars : Forall scalar [99; 233]%N /\ text_of [99; 233]%N = "c" ++ e_acute.
Proof. split; [repeat constructor|reflexivity]. Qed.
