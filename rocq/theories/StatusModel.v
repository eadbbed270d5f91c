(** * StatusModel: the names of the result codes in the log.
    The maps of codec/cmpp/connect.go, codec/cmpp/submit.go, codec/cmpp/delivery.go,
    codec/sgip/variables.go and codec/smgp/variables.go; LogModel's [names] are these.
    The texts are the UTF-8 bytes of the source. *)
From Coq Require Import String.
From Verif Require Import Base FrameModel LogModel.
Local Open Scope string_scope.
Local Open Scope list_scope.
Local Open Scope Z_scope.

(** A Go map literal and its index expression: "" for a missing key. *)
Definition status_map := list (Z * string).
Fixpoint map_at (m : status_map) (k : Z) : bytes :=
  match m with [] => [] | (k', s) :: r => if k =? k' then ascii_bytes s else map_at r k end.

(** codec/cmpp/connect.go:236-243 *)
Definition ConnectStatusMap : status_map :=
  [(0, "成功"); (1, "消息结构错"); (2, "非法源地址"); (3, "认证错"); (4, "版本太高"); (5, "其他错误")].
(** codec/cmpp/submit.go:368-383 *)
Definition SubmitResultMap : status_map :=
  [(0, "正确"); (1, "消息结构错"); (2, "命令字错"); (3, "消息序号重复"); (4, "消息长度错"); (5, "资费代码错");
   (6, "超过最大信息长"); (7, "业务代码错"); (8, "流量控制错"); (9, "本网关不负责服务此计费号码"); (10, "Src_Id 错误");
   (11, "Msg_src 错误"); (12, "Fee_terminal_Id 错误"); (13, "Dest_terminal_Id 错误")].
(** codec/cmpp/delivery.go:317-328 *)
Definition DeliveryResultMap : status_map :=
  [(0, "正确"); (1, "消息结构错"); (2, "命令字错"); (3, "消息序号重复"); (4, "消息长度错"); (5, "资费代码错");
   (6, "超过最大信息长"); (7, "业务代码错"); (8, "流量控制错"); (9, "未知错误")].
(** codec/sgip/variables.go:80-106 *)
Definition ResultMap : status_map :=
  [(0, "成功"); (1, "非法登录, 如登录名、口令出错、登录名与口令不符等。");
   (2, "重复登录, 如在同一TCP/IP连接中连续两次以上请求登录。"); (3, "连接过多, 指单个节点要求同时建立的连接数过多。");
   (4, "登录类型错, 指bind命令中的logintype字段出错。"); (5, "参数格式错, 指命令中参数值与参数类型不符或与协议规定的范围不符。");
   (6, "非法手机号码, 协议中所有手机号码字段出现非86130号码或手机号码前未加“86”时都应报错。"); (7, "消息ID错"); (8, "信息长度错");
   (9, "非法序列号, 包括序列号重复、序列号格式错误等"); (10, "非法操作GNS");
   (11, "节点忙, 指本节点存储队列满或其他原因, 暂时不能提供服务的情况");
   (21, "目的地址不可达, 指路由表存在路由且消息路由正确但被路由的节点暂时不能提供服务的情况");
   (22, "路由错, 指路由表存在路由但消息路由出错的情况, 如转错SMG等"); (23, "路由不存在, 指消息路由的节点在路由表中不存在");
   (24, "计费号码无效, 鉴权不成功时反馈的错误信息"); (25, "用户不能通信（如不在服务区、未开机等情况）"); (26, "手机内存不足");
   (27, "手机不支持短消息"); (28, "手机接收短消息出现错误"); (29, "不知道的用户"); (30, "不提供此功能"); (31, "非法设备");
   (32, "系统失败"); (33, "短信中心队列满")].
(** codec/smgp/variables.go:117-168 *)
Definition StatMap : status_map :=
  [(0, "成功"); (1, "系统忙"); (2, "超过最大连接数"); (10, "消息结构错"); (11, "命令字错"); (12, "序列号重复"); (20, "IP地址错");
   (21, "认证错"); (22, "版本太高"); (30, "非法消息类型（MsgType）"); (31, "非法优先级（LruPriority）");
   (32, "非法资费类型（FeeType）"); (33, "非法资费代码（FeeCode）"); (34, "非法短消息格式（MsgFormat）"); (35, "非法时间格式");
   (36, "非法短消息长度（MsgLength）"); (37, "有效期已过"); (38, "非法查询类别（QueryType）"); (39, "路由错误");
   (40, "非法包月费/封顶费（FixedFee）"); (41, "非法更新类型（UpdateType）"); (42, "非法路由编号（RouteId）");
   (43, "非法服务代码（ServiceId）"); (44, "非法有效期（ValidTime）"); (45, "非法定时发送时间（AtTime）");
   (46, "非法发送用户号码（SrcTermId）"); (47, "非法接收用户号码（DestTermId）"); (48, "非法计费用户号码（ChargeTermId）");
   (49, "非法SP服务代码（SPCode）"); (56, "非法源网关代码（SrcGatewayID）"); (57, "非法查询号码（QueryTermID）"); (58, "没有匹配路由");
   (59, "非法SP类型（SPType）"); (60, "非法上一条路由编号（LastRouteID）"); (61, "非法路由类型（RouteType）");
   (62, "非法目标网关代码（DestGatewayID）"); (63, "非法目标网关IP（DestGatewayIP）"); (64, "非法目标网关端口（DestGatewayPort）");
   (65, "非法路由号码段（TermRangeID）"); (66, "非法终端所属省代码（ProvinceCode）"); (67, "非法用户类型（UserType）");
   (68, "本节点不支持路由更新"); (69, "非法SP企业代码（SPID）"); (70, "非法SP接入类型（SPAccessType）"); (71, "路由信息更新失败");
   (72, "非法时间戳（Time）"); (73, "非法业务代码（MServiceID）"); (74, "SP禁止下发时段"); (75, "SP发送超过日流量");
   (76, "SP帐号过有效期")].

(** The names in a login answer's status: connect.go:232-234, sgip/variables.go:76-78,
    smgp/variables.go:113-115; ConnStatus (a byte) and MtResult
    (a uint32) are converted to uint32, Status (SGIP: a byte, SMGP: a uint32) is the key. *)
Definition login_names (p : proto) (s : Z) : bytes :=
  match p with P_CMPP => map_at ConnectStatusMap (u32 s) | P_SGIP => map_at ResultMap s | P_SMGP => map_at StatMap s end.
(** submit.go:364-366 and the same Status types *)
Definition submit_names (p : proto) (s : Z) : bytes :=
  match p with P_CMPP => map_at SubmitResultMap (u32 s) | P_SGIP => map_at ResultMap s | P_SMGP => map_at StatMap s end.
(** delivery.go:313-315 and the same Status types *)
Definition deliver_names (p : proto) (s : Z) : bytes :=
  match p with P_CMPP => map_at DeliveryResultMap (u32 s) | P_SGIP => map_at ResultMap s | P_SMGP => map_at StatMap s end.
(** report.go:18, 90: State is a Status *)
Definition state_names (s : Z) : bytes := map_at ResultMap s.
