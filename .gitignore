rocq/.lia.cache
rocq/.nia.cache
rocq/Makefile
rocq/Makefile.conf
rocq/.Makefile.d
*.vo
*.vok
*.vos
*.glob
*.aux
.lia.cache
