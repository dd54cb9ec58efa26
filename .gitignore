*.vo
*.vos
*.vok
*.glob
*.aux
.*.aux
.lia.cache
.nia.cache
.Makefile.d
Makefile
Makefile.conf
rocq/Makefile*
*.cache
