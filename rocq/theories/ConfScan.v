(** Model of the scanner of the configuration file (src/cfgparser/oscan.lex), which
    flex turns into a function that takes the longest text that a rule matches and,
    of the rules that match it, the first.  A byte is a number; the file may contain
    any bytes.  Allocation succeeds.  Definitions only. *)
From Coq Require Import String.
From Verif Require Import Base Regex.

(** ** The definitions of src/cfgparser/oscan.lex:145-165 *)
(** src/cfgparser/oscan.lex:145,147: DECDIGIT, HEX8 *)
Definition dec : rx := Cls digitc.
(** see above, src/cfgparser/oscan.lex:145,147 *)
Definition hexc (c : Z) : bool := digitc c || ((97 <=? c) && (c <=? 102)) || ((65 <=? c) && (c <=? 70)).
(** see above, src/cfgparser/oscan.lex:145,147 *)
Definition hex : rx := Cls hexc.
(** flex's r{0,n} (as used in src/cfgparser/oscan.lex:154-163) *)
Fixpoint upto (n : nat) (r : rx) : rx := match n with O => Eps | S n' => Opt (Cat r (upto n' r)) end.
(** flex's r{n} (src/cfgparser/oscan.lex:154-160) *)
Fixpoint times (n : nat) (r : rx) : rx := match n with O => Eps | S n' => Cat r (times n' r) end.
(** flex's r{1,n+1} (src/cfgparser/oscan.lex:148-163) *)
Definition oneto (n : nat) (r : rx) : rx := Cat r (upto n r).
(** src/cfgparser/oscan.lex:146 FLOAT *)
Definition rx_float : rx := Cat (Plus dec) (Cat (Chr 46) (Plus dec)).
(** src/cfgparser/oscan.lex:148,150: QUAD, IPV4ADDR *)
Definition quad : rx := oneto 2 dec.
(** see above, src/cfgparser/oscan.lex:148,150 *)
Definition rx_ip4 : rx := Cat quad (Cat (Chr 46) (Cat quad (Cat (Chr 46) (Cat quad (Cat (Chr 46) quad))))).
(** src/cfgparser/oscan.lex:152 HEX16 *)
Definition hex16 : rx := oneto 3 hex.
(** {HEX16}: and :{HEX16} of src/cfgparser/oscan.lex:154-163 *)
Definition hexcol : rx := Cat hex16 (Chr 58).
(** see above, src/cfgparser/oscan.lex:154-163 *)
Definition colhex : rx := Cat (Chr 58) hex16.
(** src/cfgparser/oscan.lex:154-159: IPV6PAT2 to IPV6PAT7 are those with n = 1 to 6
    groups in front *)
Definition pat_mid (n : nat) : rx := Cat (times n hexcol) (Cat (Chr 58) (Cat (upto (6 - n) hexcol) hex16)).
(** src/cfgparser/oscan.lex:160-163: IPV6PAT1, 8, 9, 10 *)
Definition pat1 : rx := Cat (times 7 hexcol) hex16.
(** see above, src/cfgparser/oscan.lex:160-163 *)
Definition pat8 : rx := Cat (oneto 6 hexcol) (Chr 58).
(** see above, src/cfgparser/oscan.lex:160-163 *)
Definition pat9 : rx := Cat (Chr 58) (Chr 58).
(** see above, src/cfgparser/oscan.lex:160-163 *)
Definition pat10 : rx := Cat (Chr 58) (oneto 6 colhex).
(** src/cfgparser/oscan.lex:165 IPV6ADDR *)
Definition rx_ip6 : rx :=
  Alt pat1 (Alt (pat_mid 1) (Alt (pat_mid 2) (Alt (pat_mid 3) (Alt (pat_mid 4) (Alt (pat_mid 5) (Alt (pat_mid 6) (Alt pat8 (Alt pat9 pat10)))))))).

(** ** The rules *)
(** what the action of a rule does (src/cfgparser/oscan.lex:169-799) *)
Inductive kind :=
| KComment | KSlash | KOpen | KClose | KString | KHex | KFloat | KIp4 | KIp6
| KWord (tok : string) | KInt | KBool (b : bool) | KNewline | KBlank | KOther.
(** flex's dot, everything but a newline (src/cfgparser/oscan.lex:169, 790) *)
Definition dotc (c : Z) : bool := negb (c =? 10).
(** src/cfgparser/oscan.lex:169: a backslash and an s is the letter s in flex *)
Definition rx_comment : rx := Cat (Star (Chr 115)) (Cat (Chr 35) (Cat (Star (Cls dotc)) (Chr 10))).
(** src/cfgparser/oscan.lex:192 *)
Definition rx_string : rx := Cat (Chr 34) (Cat (Star (Cls (fun c => negb (c =? 34)))) (Chr 34)).
(** src/cfgparser/oscan.lex:230-246 *)
Definition words1 : list (string * string) := [
  ("default", "DEFAULT"); ("auto", "AUTO"); ("none", "NONE")
]%string.
(** src/cfgparser/oscan.lex:267-781: the text and the token without TOK_ *)
Definition words2 : list (string * string) := [
  ("Host", "HOSTLABEL"); ("Net", "NETLABEL"); ("MaxConnections", "MAXIPC"); ("DebugLevel", "DEBUGLEVEL");
  ("IpVersion", "IPVERSION"); ("NicChgsPollInt", "NICCHGSPOLLRT"); ("Hna4", "HNA4"); ("Hna6", "HNA6");
  ("LoadPlugin", "PLUGIN"); ("PlParam", "PLPARAM"); ("Interface", "INTERFACE");
  ("InterfaceDefaults", "INTERFACE_DEFAULTS"); ("AllowNoInt", "NOINT"); ("TosValue", "TOS");
  ("OlsrPort", "OLSRPORT"); ("RtProto", "RTPROTO"); ("RtTable", "RTTABLE"); ("RtTableDefault", "RTTABLE_DEFAULT");
  ("RtTableTunnel", "RTTABLE_TUNNEL"); ("RtTablePriority", "RTTABLE_PRIORITY");
  ("RtTableDefaultOlsrPriority", "RTTABLE_DEFAULTOLSR_PRIORITY");
  ("RtTableTunnelPriority", "RTTABLE_TUNNEL_PRIORITY"); ("RtTableDefaultPriority", "RTTABLE_DEFAULT_PRIORITY");
  ("Willingness", "WILLINGNESS"); ("IpcConnect", "IPCCON"); ("FIBMetric", "FIBMETRIC");
  ("FIBMetricDefault", "FIBMETRICDEFAULT"); ("UseHysteresis", "USEHYST"); ("HystScaling", "HYSTSCALE");
  ("HystThrHigh", "HYSTUPPER"); ("HystThrLow", "HYSTLOWER"); ("Pollrate", "POLLRATE");
  ("TcRedundancy", "TCREDUNDANCY"); ("MprCoverage", "MPRCOVERAGE"); ("LinkQualityLevel", "LQ_LEVEL");
  ("LinkQualityFishEye", "LQ_FISH"); ("LinkQualityAging", "LQ_AGING"); ("LinkQualityAlgorithm", "LQ_PLUGIN");
  ("NatThreshold", "LQ_NAT_THRESH"); ("LinkQualityMult", "LQ_MULT"); ("MinTCVTime", "MIN_TC_VTIME");
  ("LockFile", "LOCK_FILE"); ("ClearScreen", "CLEAR_SCREEN"); ("UseNiit", "USE_NIIT"); ("SmartGateway", "SMART_GW");
  ("SmartGatewayAlwaysRemoveServerTunnel", "SMART_GW_ALWAYS_REMOVE_SERVER_TUNNEL");
  ("SmartGatewayUseCount", "SMART_GW_USE_COUNT"); ("SmartGatewayTakeDownPercentage", "SMART_GW_TAKEDOWN_PERCENTAGE");
  ("SmartGatewayInstanceId", "SMART_GW_INSTANCE_ID");
  ("SmartGatewayPolicyRoutingScript", "SMART_GW_POLICYROUTING_SCRIPT");
  ("SmartGatewayEgressInterfaces", "SMART_GW_EGRESS_IFS"); ("SmartGatewayEgressFile", "SMART_GW_EGRESS_FILE");
  ("SmartGatewayEgressFilePeriod", "SMART_GW_EGRESS_FILE_PERIOD");
  ("SmartGatewayStatusFile", "SMART_GW_STATUS_FILE"); ("SmartGatewayTablesOffset", "SMART_GW_OFFSET_TABLES");
  ("SmartGatewayRulesOffset", "SMART_GW_OFFSET_RULES"); ("SmartGatewayAllowNAT", "SMART_GW_ALLOW_NAT");
  ("SmartGatewayPeriod", "SMART_GW_PERIOD"); ("SmartGatewayStableCount", "SMART_GW_STABLECOUNT");
  ("SmartGatewayThreshold", "SMART_GW_THRESH"); ("SmartGatewayWeightExitLinkUp", "SMART_GW_WEIGHT_EXITLINK_UP");
  ("SmartGatewayWeightExitLinkDown", "SMART_GW_WEIGHT_EXITLINK_DOWN");
  ("SmartGatewayWeightEtx", "SMART_GW_WEIGHT_ETX"); ("SmartGatewayDividerEtx", "SMART_GW_DIVIDER_ETX");
  ("SmartGatewayMaxCostMaxEtx", "SMART_GW_MAX_COST_MAX_ETX"); ("SmartGatewayUplink", "SMART_GW_UPLINK");
  ("SmartGatewayUplinkNAT", "SMART_GW_UPLINK_NAT"); ("SmartGatewaySpeed", "SMART_GW_SPEED");
  ("SmartGatewayPrefix", "SMART_GW_PREFIX"); ("SrcIpRoutes", "SRC_IP_ROUTES"); ("Weight", "IFWEIGHT");
  ("MainIp", "MAIN_IP"); ("SetIpForward", "SET_IPFORWARD"); ("Ip4Broadcast", "IP4BROADCAST");
  ("IPv4Broadcast", "IPV4BROADCAST"); ("IPv4Multicast", "IPV4MULTICAST"); ("Mode", "IFMODE");
  ("IPv6Multicast", "IPV6MULTICAST"); ("IPv4Src", "IPV4SRC"); ("IPv6Src", "IPV6SRC"); ("HelloInterval", "HELLOINT");
  ("HelloValidityTime", "HELLOVAL"); ("TcInterval", "TCINT"); ("TcValidityTime", "TCVAL"); ("MidInterval", "MIDINT");
  ("MidValidityTime", "MIDVAL"); ("HnaInterval", "HNAINT"); ("HnaValidityTime", "HNAVAL");
  ("AutoDetectChanges", "AUTODETCHG")
]%string.
(** a rule for a fixed text, like src/cfgparser/oscan.lex:267 *)
Definition wrule (w : string * string) : rx * kind := (Lit (str (fst w)), KWord (snd w)).
(** src/cfgparser/oscan.lex:169-799 *)
Definition rules : list (rx * kind) :=
  [(rx_comment, KComment); (Chr 47, KSlash); (Chr 123, KOpen); (Chr 125, KClose); (rx_string, KString);
   (Cat (Chr 48) (Cat (Chr 120) (Plus hex)), KHex); (rx_float, KFloat); (rx_ip4, KIp4); (rx_ip6, KIp6)] ++
  map wrule words1 ++
  [(Plus dec, KInt); (Lit (str "yes"), KBool true); (Lit (str "no"), KBool false)] ++
  map wrule words2 ++
  [(Alt (Chr 10) (Cat (Chr 13) (Chr 10)), KNewline); (Alt (Chr 32) (Chr 9), KBlank); (Cls dotc, KOther)].

(** ** The function that flex makes of the rules in src/cfgparser/oscan.lex:167-801 *)
(** the first rule that matches what was read; flex on src/cfgparser/oscan.lex:170-760 *)
Definition hit (rs : list (rx * kind)) : option kind := option_map snd (find (fun p => nullable (fst p)) rs).
(** reading on while remembering the last match and its length; flex on src/cfgparser/oscan.lex *)
Fixpoint munch (rs : list (rx * kind)) (s : list Z) (n : nat) (best : option (nat * kind)) : option (nat * kind) :=
  let best' := match hit rs with Some k => Some (n, k) | None => best end in
  match s with
  | [] => best'
  | c :: s' => munch (map (fun p => (deriv c (fst p), snd p)) rs) s' (S n) best'
  end.
(** all matches up to the end of the file, with their texts; the fuel is the length of the
    file; yylex of src/cfgparser/oscan.lex *)
Fixpoint lexemes (fuel : nat) (s : list Z) : list (kind * list Z) :=
  match s, fuel with
  | [], _ => []
  | _, O => []
  | _, S f => match munch rules s 0 None with
              | Some (S n, k) => (k, firstn (S n) s) :: lexemes f (skipn (S n) s)
              | _ => []
              end
  end.

(** ** The actions *)
(** what the parser is given: yylval for the token; src/cfgparser/oscan.lex:176-215 *)
Inductive token := TWord (tok : string) | TInt (z : Z) | TFloat (text : list Z) | TBool (b : bool)
| TString (s : list Z) | TIp4 (s : list Z) | TIp6 (s : list Z) | TSlash | TOpen | TClose | TComment.
(** strtol with base 0 (src/cfgparser/oscan.lex:108-114) for text that begins with a
    digit: the base, the digits; a 64 bit long, stored in 32 bits
    (src/cfgparser/olsrd_conf.h:57) *)
Definition digval (c : Z) : Z := if digitc c then c - 48 else if (97 <=? c) && (c <=? 122) then c - 87 else if (65 <=? c) && (c <=? 90) then c - 55 else 99.
(** see above, src/cfgparser/oscan.lex:108-114 *)
Fixpoint strto (base acc : Z) (s : list Z) : Z :=
  match s with
  | c :: s' => if digval c <? base then strto base (acc * base + digval c) s' else acc
  | [] => acc
  end.
(** see above, src/cfgparser/oscan.lex:108-114 *)
Definition strtol0 (s : list Z) : Z :=
  Z.min (2 ^ 63 - 1)
    match s with
    | 48 :: 120 :: d :: s' => if hexc d then strto 16 0 (d :: s') else 0
    | 48 :: s' => strto 8 0 s'
    | _ => strto 10 0 s
    end.
(** the actions of src/cfgparser/oscan.lex:169-799 *)
Definition tok_of (p : kind * list Z) : option token :=
  let '(k, t) := p in
  match k with
  | KComment => Some TComment
  | KSlash => Some TSlash
  | KOpen => Some TOpen
  | KClose => Some TClose
  | KString => Some (TString (firstn (length t - 2) (skipn 1 t)))
  | KHex | KInt => Some (TInt (u32 (strtol0 t)))
  | KFloat => Some (TFloat t)
  | KIp4 => Some (TIp4 t)
  | KIp6 => Some (TIp6 t)
  | KWord w => Some (TWord w)
  | KBool b => Some (TBool b)
  | KNewline | KBlank | KOther => None
  end.
(** the tokens of a file; no counterpart in src/cfgparser/oscan.lex *)
Fixpoint somes {A} (l : list (option A)) : list A := match l with [] => [] | Some x :: r => x :: somes r | None :: r => somes r end.
(** see above, src/cfgparser/oscan.lex:169-799 *)
Definition scan (s : list Z) : list token := somes (map tok_of (lexemes (length s) s)).
(** current_line at the end of the file (src/cfgparser/olsrd_conf.c:256,
    src/cfgparser/oscan.lex:170, 785) *)
Definition counts (k : kind) : bool := match k with KComment | KNewline => true | _ => false end.
(** see above, src/cfgparser/olsrd_conf.c:256 *)
Definition lines (s : list Z) : Z := 1 + Z.of_nat (length (filter (fun p => counts (fst p)) (lexemes (length s) s))).
