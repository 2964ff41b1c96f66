(** The file galileo-osnma/src/galmon/navmon.proto and what it says about the fields of the
    messages, after https://protobuf.dev/reference/protobuf/proto2-spec/ (the part of the language
    that the file uses). *)
From Coq Require Import ZArith String Ascii List Bool.
From Verif Require Import Model.Prelude Model.Protobuf.
Import ListNotations.
Open Scope list_scope.
Open Scope Z_scope.

(** ** Words and signs *)

Definition newline : ascii := "010"%char.
Definition is_blank (c : ascii) : bool := (nat_of_ascii c <=? 32)%nat.
Definition is_sign (c : ascii) : bool := existsb (Ascii.eqb c) ["{"; "}"; "="; ";"]%char.

(** The words and signs of a text; [word] is the part of a word before, in reverse, and a comment
    goes to the end of the line. *)
Definition finish (word : list ascii) (rest : list string) : list string :=
  match word with [] => rest | _ => string_of_list_ascii (rev word) :: rest end.
Fixpoint words_of_text (s : string) (comment : bool) (word : list ascii) : list string :=
  match s with
  | EmptyString => finish word []
  | String c s' =>
      if comment then words_of_text s' (negb (Ascii.eqb c newline)) []
      else if Ascii.eqb c "/" then finish word (words_of_text s' true [])
      else if is_blank c then finish word (words_of_text s' false [])
      else if is_sign c then finish word (String c EmptyString :: words_of_text s' false [])
      else words_of_text s' false (c :: word)
  end.

(** A number in decimal digits. *)
Definition digit (c : ascii) : Z := Z.of_nat (nat_of_ascii c) - 48.
Definition number (s : string) : Z := fold_left (fun v c => 10 * v + digit c) (list_ascii_of_string s) 0.

(** ** Declarations *)

Definition label_named (s : string) : option label :=
  if (s =? "required")%string then Some Required
  else if (s =? "optional")%string then Some Optional
  else if (s =? "repeated")%string then Some Repeated
  else None.
Definition basic_types : list (string * ftype) :=
  [("uint32", Scalar Uint32); ("uint64", Scalar Uint64); ("int32", Scalar Int32); ("bool", Scalar Boolean);
   ("double", Scalar Double); ("string", Scalar Text); ("bytes", Scalar Bytes)]%string.
Definition type_named (types : list (string * ftype)) (s : string) : option ftype :=
  option_map snd (find (fun p => (fst p =? s)%string) types).

(** The fields in the order of their numbers, in which they are written. *)
Fixpoint insert_field (f : field) (l : list field) : list field :=
  match l with
  | [] => [f]
  | g :: l' => if fst (fst f) <=? fst (fst g) then f :: l else g :: insert_field f l'
  end.

(** The values of an enumeration up to the end of it. *)
Fixpoint skip_enum (l : list string) : list string :=
  match l with
  | [] => []
  | w :: l => if (w =? "}")%string then l else skip_enum l
  end.

(** The contents of a message up to the end of it: its fields and the rest of the text. The types
    declared in it, and around it, can be used after their declaration; the default of an
    enumeration is its first value. *)
Fixpoint contents (fuel : nat) (types : list (string * ftype)) (fields : list field) (l : list string)
  : option (list field * list string) :=
  match fuel with
  | O => None
  | S fuel =>
      match l with
      | "}"%string :: l => Some (fields, l)
      | "message"%string :: name :: "{"%string :: l =>
          match contents fuel types [] l with
          | Some (inner, l) => contents fuel ((name, Message inner) :: types) fields l
          | None => None
          end
      | "enum"%string :: name :: "{"%string :: _ :: "="%string :: first :: l =>
          contents fuel ((name, Scalar (Enum (number first))) :: types) fields (skip_enum l)
      | w :: type :: _ :: "="%string :: tag :: ";"%string :: l =>
          match label_named w, type_named types type with
          | Some lab, Some t => contents fuel types (insert_field (number tag, lab, t) fields) l
          | _, _ => None
          end
      | _ => None
      end
  end.

(** A file with one message, of which these are the fields. *)
Definition file_fields (text : string) : option (list field) :=
  match words_of_text text false [] with
  | "syntax"%string :: "="%string :: _ :: ";"%string :: "message"%string :: _ :: "{"%string :: l =>
      match contents (List.length l) basic_types [] l with
      | Some (fields, []) => Some fields
      | _ => None
      end
  | _ => None
  end.

(** ** The file *)

Definition navmon_proto : string := "syntax = ""proto2"";

message NavMonMessage {
  enum Type {
    ReceptionDataType = 1;
    ObserverPositionType = 2;
    GalileoInavType = 3;
    RFDataType = 4;
    GPSInavType = 5;
    BeidouInavTypeD1 = 6;
    GlonassInavType = 7;
    BeidouInavTypeD2 = 8;
    SARResponseType = 9;
    DebuggingType = 10;
    ObserverDetailsType = 11;
    UbloxJammingStatsType = 12;
    SBASMessageType = 13;
    GPSCnavType = 14;
    RTCMMessageType = 15;
    TimeOffsetType = 16;
    GalileoFnavType = 17;
    GalileoCnavType = 18;
  }

  required uint64 sourceID = 1;

  required Type type = 2;
  required uint64 localUtcSeconds = 3;
  required uint64 localUtcNanoseconds = 4;

  message GalileoInav {
	required uint32 gnssWN =1;
  	required uint32 gnssTOW =2; // INTEGERS!

	required uint32 gnssID =3;
	required uint32 gnssSV =4;
	required bytes contents =5;
        optional uint32 sigid = 6;
        optional bytes reserved1 = 7;
        optional bytes reserved2 = 8;
        optional bytes sar = 9;
        optional bytes spare = 10;
        optional bytes crc = 11;
        optional uint32 ssp = 12;
  }

message GalileoFnav {
	required uint32 gnssWN =1;
  	required uint32 gnssTOW =2; // INTEGERS!

	required uint32 gnssID =3;
	required uint32 gnssSV =4;
	required bytes contents =5;
        required uint32 sigid = 6;        
  }
  message GalileoCnav {
	required uint32 gnssWN =1;
  	required uint32 gnssTOW =2; // INTEGERS!

	required uint32 gnssID =3;
	required uint32 gnssSV =4;
	required bytes contents =5;
        required uint32 sigid = 6;        
  }

  message GPSInav {
	required uint32 gnssWN =1;
  	required uint32 gnssTOW =2; // INTEGERS!

	required uint32 gnssID =3;
	required uint32 gnssSV =4;
	required bytes contents =5;
        optional uint32 sigid = 6;
  }

  message BeidouInavD1 {
	required uint32 gnssWN =1;
  	required uint32 gnssTOW =2; // INTEGERS!

	required uint32 gnssID =3;
	required uint32 gnssSV =4;
	required bytes contents =5;
                optional uint32 sigid = 6;      
  }
  message BeidouInavD2 {
	required uint32 gnssWN =1;
  	required uint32 gnssTOW =2; // INTEGERS!

	required uint32 gnssID =3;
	required uint32 gnssSV =4;
	required bytes contents =5;
        optional uint32 sigid = 6;        
  }

  message GlonassInav {
        required uint32 gnssID  = 1;
	required uint32 gnssSV  = 2;
        required uint32 freq    = 3;
	required bytes contents = 4;
        optional uint32 sigid = 5;
  }


  message ReceptionData {
        required uint32 gnssID =1;
	required uint32 gnssSV =2;
        optional uint32 sigid = 7;
  	required uint32 db     =3;
        required uint32 el     =4;
        required uint32 azi    =5;
        required double prRes  =6;
        optional uint32 qi = 8;
        optional bool used = 9;
        
  }

  message RFData {
        required double rcvTow = 1;
        required uint32 rcvWn = 2;     
	required uint32 gnssID =3;
	required uint32 gnssSV =4;
	required double doppler =5;
	required double carrierphase = 6;
        required double pseudorange = 7;
        required double locktimeMS = 8;
        required double doStd = 9;
        required double cpStd = 10;
        required double prStd = 11;
        optional uint32 sigid = 12;
        optional uint32 cno = 13;
        optional bool prvalid = 14;
        optional bool cpvalid = 15;
        optional bool halfcycvalid =16;
        optional bool subhalfcyc = 17;
        optional bool clkReset = 18;
        
  }

  message ObserverPosition {
          required double x = 1;
          required double y = 2;
          required double z = 3;
          required double acc = 4;
          optional double groundSpeed = 5;
  }

  message SARResponse {
  	required uint32 gnssID =1;
	required uint32 gnssSV =2;
        required uint32 sigid =3;
        required uint32 type =4;
        required bytes identifier = 5;
        required uint32 code= 6;
        required bytes params =7;
  }

  message DebuggingMessage {
          required uint32 type = 1;
          required bytes payload = 2;
  }

  message ObserverDetails {
          required string vendor = 1;
          required string hwversion = 2;
          required string modules = 3;
          required string swversion = 4;
          required string serialno = 5;
          optional double clockOffsetNS = 6;
          optional double clockOffsetDriftNS = 7;
          optional double clockAccuracyNS = 8;
          optional double freqAccuracyPS = 9;
          optional string owner = 10;
          optional string remark = 11;
          optional string recvgithash = 12;
          optional uint32 uptime = 13;
  }

  message UbloxJammingStats
  {
        required uint32 noisePerMS = 1;
        required uint32 agcCnt = 2;
        required uint32 flags = 3;
        required uint32 jamInd = 4;
  }

  message SBASMessage {
	required uint32 gnssID = 1;
	required uint32 gnssSV = 2;
	required bytes contents = 3;
  }


  message GPSCnav {
	required uint32 gnssWN =1;
  	required uint32 gnssTOW =2; // INTEGERS!

	required uint32 gnssID =3;
	required uint32 gnssSV =4;
	required bytes contents =5;
        required uint32 sigid = 6;
  }


  message RTCMMessage {
	required bytes contents =5;
  }

  message GNSSOffset
  {
        required uint32 gnssid = 1;

        required int32 offsetNS = 2;
        required uint32 tAcc = 3;
        required bool valid = 4;
        optional int32 leapS = 5;
        required uint32 tow = 6;
        optional uint32 wn = 7;
        optional uint32 nT = 8;
        optional uint32 n4 = 9;

  }
  

  message TimeOffsetMessage
  {
       required uint32 itow = 1;
       repeated GNSSOffset offsets = 2;
  }


  optional GalileoInav gi=5;
  optional ReceptionData rd=6;  
  optional RFData rfd=7;
  optional ObserverPosition op=8;
  optional GPSInav gpsi=9;
  optional BeidouInavD1 bid1=10;
  optional BeidouInavD2 bid2=11;
  optional GlonassInav  gloi=12;
  optional SARResponse sr=13;
  optional DebuggingMessage dm = 14;
  optional ObserverDetails od = 15;
  optional UbloxJammingStats ujs = 16;
  optional SBASMessage sbm = 17;
  optional GPSCnav gpsc = 18;
  optional RTCMMessage rm = 19;
  optional TimeOffsetMessage to = 20;
  optional GalileoFnav gf=21;
  optional GalileoCnav gc=22;
}
"%string.
