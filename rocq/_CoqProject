-Q theories Verif
theories/PyBytes.v
theories/PyBytesFacts.v
theories/PyInt.v
theories/PyIntFacts.v
theories/PyExn.v
theories/M_Parser.v
theories/S_Head.v
theories/P_Parser.v
theories/P_Parser2.v
theories/P_Parser3.v
theories/P_Parser4.v
theories/M_Framing.v
theories/S_Num.v
theories/P_Framing.v
theories/P_Head5.v
theories/T_Head.v
theories/M_Header.v
theories/P_Header.v
theories/M_Stream.v
theories/S_Chunked.v
theories/P_Stream.v
theories/P_Chunked.v
theories/P_Chunked2.v
theories/S_Read.v
theories/P_Read.v
theories/T_Body.v
theories/Trans.v
theories/M_Upload.v
theories/P_Upload.v
theories/T_Upload.v
theories/PyUtf8.v
theories/M_WebSocket.v
theories/S_WebSocket.v
theories/P_WebSocket.v
theories/T_WebSocket.v
theories/PyDictFacts.v
theories/PyUrl.v
theories/M_Response.v
theories/S_Response.v
theories/S_Calls.v
theories/P_Response.v
theories/P_Response2.v
theories/P_Response3.v
theories/P_Response4.v
theories/P_Response5.v
theories/P_Response6.v
theories/P_Said.v
theories/P_Response7.v
theories/P_Response8.v
theories/M_Sendfile.v
theories/S_Range.v
theories/S_Sendfile.v
theories/P_Sendfile.v
theories/P_Sendfile2.v
theories/P_Sendfile3.v
theories/P_Sendfile4.v
theories/T_Response.v
theories/T_Sendfile.v
theories/T_SendConn.v
theories/M_Args.v
theories/S_Args.v
theories/P_Args.v
theories/T_Args.v
theories/M_AsgiConn.v
theories/S_AsgiConn.v
theories/P_AsgiConn.v
theories/T_AsgiConn.v
theories/M_Pages.v
theories/S_Pages.v
theories/P_Pages.v
theories/T_Pages.v
theories/M_Sse.v
theories/S_EventSource.v
theories/S_Sse.v
theories/P_Sse.v
theories/T_Sse.v
theories/M_Utils.v
theories/S_Utils.v
theories/P_Utils.v
theories/T_Utils.v
theories/M_Queue.v
theories/S_Queue.v
theories/P_Queue.v
theories/T_Queue.v
theories/M_Lock.v
theories/S_Lock.v
theories/P_Lock.v
theories/T_Lock.v
theories/PyBytesFacts2.v
theories/PyQs.v
theories/M_Form.v
theories/S_Form.v
theories/S_Cookie.v
theories/P_Form.v
theories/P_Cookie.v
theories/T_Form.v
theories/M_Files.v
theories/S_Files.v
theories/P_Files.v
theories/T_Files.v
theories/PyRe.v
theories/M_Route.v
theories/S_Route.v
theories/P_Re.v
theories/P_Route.v
theories/T_Route.v
theories/M_Server.v
theories/S_Server.v
theories/P_Server.v
theories/P_Server2.v
theories/T_Server.v
theories/M_Asgi.v
theories/S_Asgi.v
theories/P_Asgi.v
theories/P_Asgi2.v
theories/P_Asgi3.v
theories/T_Asgi.v
theories/M_Lifespan.v
theories/T_Lifespan.v
theories/M_Super.v
theories/P_Super.v
theories/T_Super.v
theories/M_Conn.v
theories/S_Conn.v
theories/P_Conn.v
theories/P_Conn2.v
theories/P_Conn3.v
theories/P_Conn4.v
theories/P_Conn5.v
theories/P_Conn6.v
theories/P_Conn7.v
theories/P_Conn8.v
theories/P_Conn9.v
theories/P_Conn10.v
theories/T_Conn.v
theories/T_Continue.v
theories/M_Worker.v
theories/S_Worker.v
theories/P_Worker.v
theories/T_Worker.v
theories/M_Send.v
theories/S_Send.v
theories/P_Send.v
theories/T_Send.v
theories/M_Timer.v
theories/S_Timer.v
theories/P_Timer.v
theories/T_Timer.v
theories/PySha1.v
theories/M_Handshake.v
theories/S_Handshake.v
theories/P_Handshake.v
theories/T_Handshake.v
theories/S_Upgrade.v
theories/P_Upgrade.v
theories/T_Upgrade.v
theories/M_AsgiWs.v
theories/M_Scope.v
theories/S_Scope.v
theories/P_Scope.v
theories/T_Scope.v
theories/S_AsgiWs.v
theories/P_AsgiWs.v
theories/P_AsgiWs2.v
theories/T_AsgiWs.v
theories/M_Hooks.v
theories/S_Hooks.v
theories/P_Hooks.v
theories/T_Hooks.v
theories/M_App.v
theories/S_App.v
theories/P_App.v
theories/T_App.v
theories/M_Run.v
theories/S_Run.v
theories/P_Run.v
theories/T_Run.v
theories/M_Reload.v
theories/S_Reload.v
theories/P_Reload.v
theories/T_Reload.v
theories/M_Idle.v
theories/S_Idle.v
theories/P_Idle.v
theories/T_Idle.v
theories/M_Site.v
theories/M_Stack.v
theories/S_Site.v
theories/P_Site.v
theories/P_Site2.v
theories/P_Site3.v
theories/P_Site4.v
theories/P_Exchange.v
theories/P_Site5.v
theories/T_Site.v
theories/M_Context.v
theories/S_Context.v
theories/P_Context.v
theories/T_Context.v
theories/S_Open.v
theories/P_Conn11.v
theories/T_Open.v
theories/M_AsgiSite.v
theories/S_AsgiSite.v
theories/S_Stack.v
theories/P_AsgiSite.v
theories/T_AsgiSite.v
theories/P_Stack.v
theories/P_Stack2.v
theories/S_Told.v
theories/P_Told.v
theories/T_Stack.v
theories/S_Keep.v
theories/P_Keep.v
theories/T_Keep.v
theories/S_Bare.v
theories/P_Bare.v
theories/T_Bare.v
theories/PyTime.v
theories/M_Date.v
theories/S_Date.v
theories/P_Date.v
theories/T_Date.v
theories/S_Close.v
theories/P_Conn12.v
theories/P_Close.v
theories/T_Close.v
theories/S_AsgiClose.v
theories/P_AsgiClose.v
theories/T_AsgiClose.v
theories/S_AsgiCut.v
theories/P_AsgiCut.v
theories/T_AsgiCut.v
theories/M_Limit.v
theories/S_Limit.v
theories/P_Limit.v
theories/T_Limit.v
theories/M_Fault.v
theories/S_Fault.v
theories/P_Late.v
theories/P_Fault.v
theories/T_Fault.v
theories/P_Conn13.v
theories/S_Cut.v
theories/P_Cut.v
theories/T_Cut.v
theories/S_Word.v
theories/P_Word.v
theories/T_Word.v
theories/S_Own.v
theories/P_Own.v
theories/T_Own.v
theories/S_Pieces.v
theories/P_Pieces.v
theories/T_Pieces.v
theories/S_Ctype.v
theories/P_Ctype.v
theories/T_Ctype.v
