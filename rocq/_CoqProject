-Q theories Verif
theories/M_Attach.v
theories/M_Base.v
theories/M_BbsTool.v
theories/M_Big5.v
theories/M_Board.v
theories/M_Cache.v
theories/M_Comment.v
theories/M_Conn.v
theories/M_Const.v
theories/M_Crypt.v
theories/M_CryptTables.v
theories/M_Cstr.v
theories/M_DB.v
theories/M_Fault.v
theories/M_Fav.v
theories/M_File.v
theories/M_FileOps.v
theories/M_Flags.v
theories/M_Fnv.v
theories/M_Form.v
theories/M_Formosa.v
theories/M_Json.v
theories/M_Jwt.v
theories/M_Login.v
theories/M_Main.v
theories/M_Mux.v
theories/M_Path.v
theories/M_Redirect.v
theories/M_Regex.v
theories/M_Registry.v
theories/M_Scan.v
theories/M_Service.v
theories/M_Shm.v
theories/M_Stop.v
theories/M_Sys.v
theories/M_Text.v
theories/M_Time.v
theories/M_Tool.v
theories/M_Transform.v
theories/M_UserInfo.v
theories/M_Userec.v
theories/M_Utf8.v
theories/M_Verify.v
theories/M_Web.v
theories/P_AddPool.v
theories/P_Ansi.v
theories/P_Base.v
theories/P_BbsTool.v
theories/P_BoardList.v
theories/P_Comment.v
theories/P_Crash.v
theories/P_CrashCalls.v
theories/P_Create.v
theories/P_Crypt.v
theories/P_CryptKey.v
theories/P_CryptRound.v
theories/P_CryptSym.v
theories/P_Digits.v
theories/P_Ext.v
theories/P_Fault.v
theories/P_Fav.v
theories/P_Fds.v
theories/P_FileOps.v
theories/P_Form.v
theories/P_Json.v
theories/P_Keep.v
theories/P_Layout.v
theories/P_Local.v
theories/P_Mux.v
theories/P_Path.v
theories/P_Pool.v
theories/P_PoolList.v
theories/P_Post.v
theories/P_PostPool.v
theories/P_Read.v
theories/P_Records.v
theories/P_Regex.v
theories/P_Remove.v
theories/P_Rfc.v
theories/P_Scan.v
theories/P_Shm.v
theories/P_Stop.v
theories/P_Store.v
theories/P_Sys.v
theories/P_Text.v
theories/P_Time.v
theories/P_UserInfo.v
theories/P_UserInfoRT.v
theories/P_UserInfoW.v
theories/P_Utf8.v
theories/P_Visit.v
theories/S_AddPool.v
theories/S_Ansi.v
theories/S_BbsTool.v
theories/S_Big5.v
theories/S_Big5Comment.v
theories/S_Big5Fav.v
theories/S_Big5Field.v
theories/S_Board.v
theories/S_BoardList.v
theories/S_Cache.v
theories/S_Comment.v
theories/S_Crash.v
theories/S_Create.v
theories/S_Crypt.v
theories/S_Digits.v
theories/S_ExWorld.v
theories/S_Example.v
theories/S_Fault.v
theories/S_Fav.v
theories/S_File.v
theories/S_Flags.v
theories/S_Fnv.v
theories/S_Form.v
theories/S_Formosa.v
theories/S_Json.v
theories/S_Jwt.v
theories/S_Keep.v
theories/S_Layout.v
theories/S_Login.v
theories/S_Main.v
theories/S_Mux.v
theories/S_Path.v
theories/S_Pool.v
theories/S_Post.v
theories/S_PostFault.v
theories/S_PostPool.v
theories/S_Redirect.v
theories/S_Routes.v
theories/S_Scan.v
theories/S_Service.v
theories/S_ServiceFault.v
theories/S_Shm.v
theories/S_Stop.v
theories/S_Store.v
theories/S_Text.v
theories/S_Time.v
theories/S_Tool.v
theories/S_UserInfo.v
theories/S_Userec.v
theories/S_Utf8.v
theories/S_Visit.v
theories/S_Web.v
theories/S_World.v
theories/T_AddPool.v
theories/T_Ansi.v
theories/T_BbsTool.v
theories/T_Big5.v
theories/T_Big5Comment.v
theories/T_Big5Fav.v
theories/T_Big5FavCut.v
theories/T_Big5Use.v
theories/T_Big5Web.v
theories/T_BoardList.v
theories/T_Cache.v
theories/T_Comment.v
theories/T_Crash.v
theories/T_CrashCalls.v
theories/T_Create.v
theories/T_Crypt.v
theories/T_Fault.v
theories/T_Fav.v
theories/T_FavFault.v
theories/T_Fds.v
theories/T_Files.v
theories/T_Form.v
theories/T_Json.v
theories/T_Jwt.v
theories/T_Keep.v
theories/T_Login.v
theories/T_Main.v
theories/T_Misc.v
theories/T_Mux.v
theories/T_Path.v
theories/T_Pool.v
theories/T_Post.v
theories/T_PostFault.v
theories/T_PostPool.v
theories/T_Records.v
theories/T_Redirect.v
theories/T_Remove.v
theories/T_Routes.v
theories/T_Scan.v
theories/T_Service.v
theories/T_ServiceFault.v
theories/T_Shm.v
theories/T_Stop.v
theories/T_Store.v
theories/T_Transform.v
theories/T_Visit.v
theories/T_Web.v
